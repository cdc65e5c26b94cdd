(** Vocabulary of C88, on the history of events only. *)
From Verif Require Import Words RxPauseModel.

(** the last switching of the search in [es] is its begin; with none, [off] tells the state at power-on *)
Definition searching (off : bool) (es : list pev) : Prop :=
  (exists a b, es = a ++ PBegin :: b /\ ~ In POff b) \/ (off = false /\ ~ In POff es).
(** the last reconnect was over at [T] *)
Definition last_end (es : list pev) (T : N) : Prop :=
  exists a b, es = a ++ PStamp T :: b /\ forall t, ~ In (PStamp t) b.
Definition never_ended (es : list pev) : Prop := forall t, ~ In (PStamp t) es.
(** what a user expects: the frame is ignored during a search and for [ms] after the end of one, and only then *)
Definition pause_right (ms : N) (off : bool) (es : list pev) (t : N) (taken : bool) : Prop :=
  taken = true <-> ~ searching off es /\ forall T, last_end es T -> T + ms <= t.
