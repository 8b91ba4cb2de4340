(** A concrete instance of the conversions that the legacy model leaves to Python, used
    only in [Example]s. *)
From Verif Require Import PyBase DateTime Objects Strptime.

Definition demoCV : PyConv := {|
  uni_decimal := fun _ => 0%Z;
  to_float := fun o => match o with OInt z => Ok (flt_of_Z z) | _ => Raise TypeError end;
  to_int := fun o => match o with
                     | OFloat (FFin n m e) => if (e =? 0)%Z then Ok (Z.of_N m) else Raise ValueError
                     | _ => Raise TypeError
                     end |}.
