(** Vocabulary of C107: which module numbers a node is given, and frames of one node that reach another. *)
From Verif Require Import Words ErrModel NodeModel NodeSpec NodeBusSpec.

(** the operation gives a module no number above 128: modules are added at one of the first four positions of the table or with a free
    number from 2 to 124, and numbers are changed to 1..128 *)
Definition low (E : env) (s : node) (o : op) : Prop :=
  match o with
  | OpAdd _ nr _ _ => forall i, next_pos s = Some i -> (i < 4)%nat \/ fresh_nr s nr
  | OpFrame mo _ _ data _ => sys_mo E mo = true -> byte_at data 0 = 32 -> 1 <= byte_at data 2 <= 128
  | OpSetNr _ new _ => 1 <= new <= 128
  | _ => True
  end.
Definition lowly (E : env) (ops : list op) (s : node) : Prop := exists s0, booted E s0 /\ run_with E (low E) ops s0 s.
(** the frame [f] is sent under the number of entry [p] of the table *)
Definition sent_under (s : node) (p : nat) (f : N * N * list byte) : Prop :=
  (p < length (tab_of s))%nat /\ awake s p = true /\ (data_id_of s p (fst (fst f)) \/ sys_id_of s p (fst (fst f))).
