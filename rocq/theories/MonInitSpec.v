(** Vocabulary of C112: what can be observed apart from the verdict on the module at the first position of the table and the
    hook of the whole image, which depends on it. *)
From Verif Require Import Words NodeModel MonModel.

Definition not_first (x : mobs) : bool := match x with OVerdict O _ _ | OImage _ => false | _ => true end.
