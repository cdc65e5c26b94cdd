(** Vocabulary of C109: the frames of the master between two process requests. *)
From Verif Require Import Words ErrModel NodeModel NodeSpec NodeBusSpec AimSpec.

(** process data for object [f_obj] of module number [f_nr], with length, data and time of arrival *)
Record feed := Feed { f_nr : N; f_obj : nat; f_dlc : N; f_data : list byte; f_now : N }.
Definition proper (f : feed) : Prop := 1 <= f_nr f <= 128 /\ (f_obj f < 4)%nat.
(** a node meets these frames one after the other *)
Fixpoint meets_all (E : env) (fs : list feed) (s s' : node) : Prop :=
  match fs with
  | [] => s' = s
  | f :: t => exists s1, meets E s (data_rx_id (f_nr f) (f_obj f)) (f_dlc f) (f_data f) (f_now f) s1 /\ meets_all E t s1 s'
  end.
(** how often the master sent object [obj] of module number [nr]: with the length [dlc] if the build checks it ([chk]), with any length otherwise *)
Definition times (chk : bool) (fs : list feed) (nr : N) (obj : nat) (dlc : N) : nat :=
  length (filter (fun f => (f_nr f =? nr) && (f_obj f =? obj)%nat && (negb chk || (f_dlc f =? dlc))) fs).
(** all additions of modules to the node succeeded *)
Definition all_complete (E : env) (s : node) : Prop := forall p, in_use (modat s p) = true -> complete E s p.
