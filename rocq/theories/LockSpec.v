(** Vocabulary of C89, on what is seen of the calls only. *)
From Verif Require Import Words LockModel.

(** between the beginnings of two evaluations the first one ends *)
Definition one_at_a_time (log : list lev) : Prop :=
  forall a i b j c, log = a ++ LBegin i :: b ++ LBegin j :: c -> In (LEnd i) b.
(** a call that does nothing was made while another one was under way *)
Definition skips_justified (log : list lev) : Prop :=
  forall a j c, log = a ++ LSkip j :: c ->
  exists i, i <> j /\ In (LCall i) a /\ ~ In (LReturn i) a /\ ~ In (LSkip i) a.
(** nothing is under way *)
Definition at_rest (log : list lev) : Prop := forall i, In (LCall i) log -> In (LReturn i) log \/ In (LSkip i) log.
