(** Properties of the initialisation (C53). *)
From Verif Require Import Words ErrModel NodeModel InitModel InitSpec InitProofs.

Lemma until_ok : forall out l, (forall s, In s l -> out s = 0) -> until_failure out l = (l, 0).
Proof.
  intros out l. induction l as [|s l IH]; intros H; [reflexivity|]. cbn [until_failure].
  rewrite (H s (or_introl eq_refl)). change (0 =? 0) with true. cbv iota. rewrite IH; [reflexivity|]. intros p P. apply H. right. exact P.
Qed.
Lemma until_fail : forall out pre s post, (forall p, In p pre -> out p = 0) -> out s <> 0 ->
  until_failure out (pre ++ s :: post) = (pre ++ [s], out s).
Proof.
  intros out pre s post H N. rewrite until_app_ok by (rewrite until_ok by exact H; reflexivity). rewrite (until_ok _ pre) by exact H.
  cbn [fst snd until_failure]. destruct (N.eqb_spec (out s) 0); [contradiction|]. reflexivity.
Qed.

(** C53: for every build and every outcome of the steps: if [s] is the first step that fails, its code is returned, the
    steps before it and [s] have run in order and no other step that can fail has. *)
Theorem C53_first_failure : forall c out ismain pre s post, steps_of c ismain = pre ++ s :: post ->
  (forall p, In p pre -> out p = 0) -> out s <> 0 ->
  fst (li_can_slv_init c out ismain) = out s /\ filter can_fail (snd (li_can_slv_init c out ismain)) = pre ++ [s].
Proof.
  intros c out ismain pre s post E H N. pose proof (init_run c out ismain) as R. unfold ran in R. rewrite E in R.
  rewrite until_fail in R by assumption. injection R as R1 R2. split; symmetry; assumption.
Qed.
Print Assumptions C53_first_failure.

(** C53: when no step fails, all have run in order and the result is success. *)
Theorem C53_success : forall c out ismain, (forall s, In s (steps_of c ismain) -> out s = 0) ->
  fst (li_can_slv_init c out ismain) = 0 /\ filter can_fail (snd (li_can_slv_init c out ismain)) = steps_of c ismain.
Proof.
  intros c out ismain H. pose proof (init_run c out ismain) as R. unfold ran in R. rewrite until_ok in R by exact H.
  injection R as R1 R2. split; symmetry; assumption.
Qed.
Print Assumptions C53_success.
Definition cfgX := ICfg true false false true true false true 3 2.
Example C53_ex :
  steps_of cfgX false = [NConfig; NTable; NHw; NMain; NMainObj 0; NMainObj 1] ++ NMainObj 2 ::
    [NDefProcess; NDefSys1; NDefSys2; NFifo; NDefData; NDefTx; NSys; NAsync; NSync] /\
  li_can_slv_init cfgX (fun s => match s with NMainObj 2 => 7 | NDefTx => 9 | _ => 0 end) false =
    (7, [NConfig; NSave; NTable; NHw; NMain; NMainObj 0; NMainObj 1; NMainObj 2]) /\
  fst (li_can_slv_init cfgX (fun _ => 0) false) = 0.
Proof. repeat split. Qed.

(** C53, refuted for the actions without a result: the start-up rate is always recorded, and a monitor board enables its
    transceiver although the initialisation has failed. *)
Theorem C53_after_failure_refuted : forall c e, e <> 0 -> n_outer c = true -> n_mainmon c = true ->
  li_can_slv_init c (fun _ => e) false = (e, [NConfig; NSave; NTransceiver]).
Proof.
  intros c e H O M. pose proof (C53_first_failure c (fun _ => e) false) as F. unfold li_can_slv_init. cbv zeta. rewrite O, M.
  cbn [only step_if_ok app step_always]. change (ERR_OK =? ERR_OK) with true. cbv iota. cbn [andb negb].
  assert (S : forall s tr, step_if_ok (fun _ => e) s (e, tr) = (e, tr)).
  { intros. unfold step_if_ok. destruct (N.eqb_spec e ERR_OK); [contradiction|reflexivity]. }
  assert (V : forall s tr, step_void s (e, tr) = (e, tr)).
  { intros. unfold step_void. destruct (N.eqb_spec e ERR_OK); [contradiction|reflexivity]. }
  assert (O1 : forall b s tr, only b (step_if_ok (fun _ => e) s) (e, tr) = (e, tr)) by (intros [] ? ?; [apply S|reflexivity]).
  assert (L : forall mk n a tr, fold_left (fun y i => step_if_ok (fun _ => e) (mk i) y) (seq a n) (e, tr) = (e, tr)).
  { intros mk n. induction n as [|n IH]; intros a tr; [reflexivity|]. cbn [seq fold_left]. rewrite S. apply IH. }
  unfold for_objs. cbn [step_always app]. 
  repeat (rewrite ?S, ?V, ?O1, ?L; cbn [step_always app only]).
  destruct (n_mon c); cbn [only andb orb negb]; repeat (rewrite ?S, ?V, ?O1, ?L; cbn [step_always app only andb]); reflexivity.
Qed.
Print Assumptions C53_after_failure_refuted.
