(** [bytes.decode()] (strict UTF-8); call site visitors.py:148-149.
    A bytes value is a list of numbers below 256. *)
From Verif Require Import PyBase.
Local Open Scope N_scope.

Definition is_cont (b : N) : bool := in_range 128 191 b.

(** Strict decoding as in CPython: over-long forms, surrogates and values above
    U+10FFFF are errors (None stands for UnicodeDecodeError). *)
Fixpoint utf8_decode (l : list N) : option str :=
  match l with
  | [] => Some []
  | b0 :: t =>
      if b0 <? 128 then option_map (cons b0) (utf8_decode t)
      else if in_range 194 223 b0 then
        match t with
        | b1 :: t1 =>
            if is_cont b1
            then option_map (cons ((b0 - 192) * 64 + (b1 - 128))) (utf8_decode t1)
            else None
        | _ => None
        end
      else if in_range 224 239 b0 then
        match t with
        | b1 :: b2 :: t2 =>
            let lo := if b0 =? 224 then 160 else 128 in
            let hi := if b0 =? 237 then 159 else 191 in
            if in_range lo hi b1 && is_cont b2
            then option_map (cons ((b0 - 224) * 4096 + (b1 - 128) * 64 + (b2 - 128)))
                   (utf8_decode t2)
            else None
        | _ => None
        end
      else if in_range 240 244 b0 then
        match t with
        | b1 :: b2 :: b3 :: t3 =>
            let lo := if b0 =? 240 then 144 else 128 in
            let hi := if b0 =? 244 then 143 else 191 in
            if in_range lo hi b1 && is_cont b2 && is_cont b3
            then option_map (cons ((b0 - 240) * 262144 + (b1 - 128) * 4096
                                   + (b2 - 128) * 64 + (b3 - 128))) (utf8_decode t3)
            else None
        | _ => None
        end
      else None
  end.

Example utf8_ex : utf8_decode [226; 130; 172; 97] = Some [8364; 97].
Proof. vm_compute. reflexivity. Qed.
Example utf8_bad : utf8_decode [192; 128] = None /\ utf8_decode [237; 160; 128] = None.
Proof. vm_compute. auto. Qed.
