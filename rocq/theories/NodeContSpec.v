(** Vocabulary of C92: what is in the application's receive objects when an image is declared valid. *)
From Verif Require Import Words ErrModel NodeModel NodeSpec.

(** operations that change the modules of the node: additions, number and type changes, silent and awake, critical and active;
    by the application or by the master (commands 32, 33, 34, 49) *)
Definition reconfigures (o : op) : bool :=
  match o with
  | OpAdd _ _ _ _ | OpSilent _ _ _ | OpSetNr _ _ _ | OpTypeAdd _ _ _ _ _ | OpTakePart _ _ => true
  | OpFrame mo _ _ data _ =>
      ((mo =? MO_SYS1)%nat || (mo =? MO_SYS2)%nat) &&
      ((nth 0 data 0 =? 32) || (nth 0 data 0 =? 33) || (nth 0 data 0 =? 34) || (nth 0 data 0 =? 49))
  | _ => false
  end.
(** the application's memory for receive object [obj] of module [pos] is at [a], and no other receive object has the same memory *)
Definition own_memory (s : node) (pos obj a : nat) : Prop :=
  r_addr (rxat (modat s pos) obj) = a /\
  forall mo p j, owner s mo = Some p -> r_addr (rxat (modat s p) j) = a -> p = pos /\ j = obj.
(** the application does not write there itself *)
Definition not_written (a : nat) (ops : list op) : Prop := forall d, ~ In (OpWrite a d) ops.
