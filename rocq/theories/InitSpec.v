(** Specification of the initialisation: the steps a build performs, in order, and running them until the first failure. *)
From Verif Require Import Words InitModel.

Definition when (b : bool) (l : list istep) : list istep := if b then l else [].
(** the steps of a build that can fail, in order *)
Definition steps_of (c : icfg) (ismain : bool) : list istep :=
  when (n_outer c) [NConfig] ++ [NTable; NHw; NMain] ++
  when (n_mon c && (negb (n_mainmon c) || ismain)) [NMon] ++
  map NMainObj (seq 0 (n_mainobjs c)) ++ when (n_mon c) (map NMonObj (seq 0 (n_monobjs c))) ++
  when (n_outer c) [NDefProcess] ++ when (n_mon c) [NDefMonProcess; NDefMonSys] ++ [NDefSys1] ++
  when (n_outer c && n_sys2 c) [NDefSys2; NFifo] ++ when (n_async c && n_boot c) [NDefCtrl] ++
  when (n_async c && n_outer c) [NDefData] ++ when (n_outer c) [NDefTx; NSys] ++ when (n_queue c) [NAsync] ++
  when (n_outer c) [NSync].
(** the actions without a result *)
Definition can_fail (s : istep) : bool := match s with NSave | NType | NTransceiver => false | _ => true end.

(** run until the first failure: the steps executed and the result *)
Fixpoint until_failure (out : istep -> N) (l : list istep) : list istep * N :=
  match l with
  | [] => ([], 0)
  | s :: t => if out s =? 0 then let '(r, e) := until_failure out t in (s :: r, e) else ([s], out s)
  end.
