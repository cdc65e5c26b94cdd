(** Vocabulary of C90, on calls and their results only. *)
From Verif Require Import Words ErrModel AsyncModel AsyncSpec DrainModel.

(** callers keep to the API *)
Definition acall_ok (c : acall) : Prop :=
  1 <= a_nr c <= 128 /\ a_ty c <> DOther /\ (N.to_nat (a_dlc c) <= length (a_src c))%nat.
(** the frame a call asks for *)
Definition asked (c : acall) : dframe := (id_of (a_nr c), a_dlc c, firstn (N.to_nat (a_dlc c)) (a_src c)).
(** no search runs and the controller takes the frame it is given *)
Definition bus_free (c : acall) : Prop := a_on c = false /\ a_hw c = ERR_OK.

Definition outcome := (N * option dframe)%type.
(** frames of the calls that returned success; frames the controller has taken *)
Fixpoint accepted (cs : list acall) (os : list outcome) : list dframe :=
  match cs, os with
  | c :: cr, (e, _) :: r => if e =? 0 then asked c :: accepted cr r else accepted cr r
  | _, _ => []
  end.
Fixpoint sent (os : list outcome) : list dframe :=
  match os with [] => [] | (_, Some f) :: r => f :: sent r | (_, None) :: r => sent r end.
Definition nr_accepted (os : list outcome) : nat := length (filter (fun o => fst o =? 0) os).
