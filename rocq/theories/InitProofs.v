(** Lemmas about the initialisation. *)
From Verif Require Import Words ErrModel NodeModel InitModel InitSpec.

(** [x] is the state after running the failing-capable steps [l] until the first failure *)
Definition ran (out : istep -> N) (l : list istep) (x : ist) : Prop :=
  until_failure out l = (filter can_fail (snd x), fst x).
Lemma until_app_ok : forall out a b, snd (until_failure out a) = 0 ->
  until_failure out (a ++ b) = (fst (until_failure out a) ++ fst (until_failure out b), snd (until_failure out b)).
Proof.
  intros out a b. induction a as [|s a IH]; intros H; [cbn [app until_failure fst]; destruct (until_failure out b); reflexivity|].
  cbn [app until_failure] in *. destruct (N.eqb_spec (out s) 0) as [E|E].
  - destruct (until_failure out a) as [r e] eqn:R. cbn [snd] in H. rewrite IH by exact H. cbn [fst snd app]. reflexivity.
  - cbn [snd] in H. contradiction.
Qed.
Lemma until_app_err : forall out a b, snd (until_failure out a) <> 0 -> until_failure out (a ++ b) = until_failure out a.
Proof.
  intros out a b. induction a as [|s a IH]; intros H; [cbn in H; congruence|].
  cbn [app until_failure] in *. destruct (N.eqb_spec (out s) 0) as [E|E]; [|reflexivity].
  destruct (until_failure out a) as [r e] eqn:R. cbn [snd] in H. rewrite IH by exact H. reflexivity.
Qed.
Lemma ran_step : forall out l s x, can_fail s = true -> ran out l x -> ran out (l ++ [s]) (step_if_ok out s x).
Proof.
  intros out l s [err tr] F R. unfold ran in *. cbn [fst snd] in R. unfold step_if_ok.
  destruct (N.eqb_spec err ERR_OK) as [E|E].
  - rewrite until_app_ok by (rewrite R; exact E). rewrite R. cbn [fst snd until_failure].
    rewrite filter_app. cbn [filter]. rewrite F. destruct (N.eqb_spec (out s) 0) as [Z|Z]; cbn [fst snd]; [rewrite Z|]; reflexivity.
  - rewrite until_app_err by (rewrite R; exact E). exact R.
Qed.
Lemma ran_only : forall out l l2 b f x, (forall x, ran out l x -> ran out (l ++ l2) (f x)) -> ran out l x ->
  ran out (l ++ when b l2) (only b f x).
Proof. intros out l l2 b f x H R. destruct b; [apply H, R|]. cbn [when only]. rewrite app_nil_r. exact R. Qed.
Lemma ran_always : forall out l s x, can_fail s = false -> ran out l x -> ran out l (step_always s x).
Proof.
  intros out l s [err tr] F R. unfold ran in *. cbn [fst snd step_always] in *. rewrite filter_app. cbn [filter]. rewrite F, app_nil_r.
  exact R.
Qed.
Lemma ran_void : forall out l s x, can_fail s = false -> ran out l x -> ran out l (step_void s x).
Proof.
  intros out l s [err tr] F R. unfold ran in *. unfold step_void. destruct (err =? ERR_OK); [|exact R].
  cbn [fst snd] in *. rewrite filter_app. cbn [filter]. rewrite F, app_nil_r. exact R.
Qed.
Lemma ran_only_same : forall out l b f x, (forall x, ran out l x -> ran out l (f x)) -> ran out l x -> ran out l (only b f x).
Proof. intros out l b f x H R. destruct b; [apply H, R|exact R]. Qed.
Lemma ran_for : forall out mk, (forall i, can_fail (mk i) = true) -> forall n a l x, ran out l x ->
  ran out (l ++ map mk (seq a n)) (fold_left (fun y i => step_if_ok out (mk i) y) (seq a n) x).
Proof.
  intros out mk F n. induction n as [|n IH]; intros a l x R; [cbn [seq map fold_left]; rewrite app_nil_r; exact R|].
  cbn [seq map fold_left]. replace (l ++ mk a :: map mk (seq (S a) n)) with ((l ++ [mk a]) ++ map mk (seq (S a) n))
    by (rewrite <- app_assoc; reflexivity).
  apply IH. apply ran_step; [apply F|exact R].
Qed.

Lemma ran_two : forall out l b s1 s2 x, can_fail s1 = true -> can_fail s2 = true -> ran out l x ->
  ran out (l ++ when b [s1; s2]) (only b (step_if_ok out s2) (only b (step_if_ok out s1) x)).
Proof.
  intros out l b s1 s2 x F1 F2 R. destruct b; cbn [when only]; [|rewrite app_nil_r; exact R].
  change [s1; s2] with ([s1] ++ [s2]). rewrite app_assoc. apply ran_step; [exact F2|]. apply ran_step; assumption.
Qed.

Theorem init_run : forall c out ismain, ran out (steps_of c ismain) (li_can_slv_init c out ismain).
Proof.
  intros c out ismain. unfold li_can_slv_init. cbv zeta. unfold steps_of.
  apply ran_only_same; [intros; apply ran_always; [reflexivity|assumption] |].
  rewrite !app_assoc.
  apply ran_only; [intros; apply ran_step; [reflexivity|assumption] |].
  apply ran_only; [intros; apply ran_step; [reflexivity|assumption] |].
  apply ran_two; try reflexivity.
  apply ran_only; [intros; apply ran_step; [reflexivity|assumption] |].
  apply ran_only; [intros; apply ran_step; [reflexivity|assumption] |].
  apply ran_two; try reflexivity.
  apply ran_step; [reflexivity|].
  apply ran_two; try reflexivity.
  apply ran_only; [intros; apply ran_step; [reflexivity|assumption] |].
  apply ran_only; [intros; apply ran_for; [reflexivity|assumption] |].
  apply ran_for; [reflexivity|].
  apply ran_only; [intros; apply ran_step; [reflexivity|assumption] |].
  change [NTable; NHw; NMain] with ([NTable] ++ [NHw] ++ [NMain]). rewrite !app_assoc.
  apply ran_step; [reflexivity|].
  apply ran_only_same; [intros; apply ran_void; [reflexivity|assumption] |].
  apply ran_step; [reflexivity|]. apply ran_step; [reflexivity|].
  apply ran_always; [reflexivity|].
  change (when (n_outer c) [NConfig]) with ([] ++ when (n_outer c) [NConfig]).
  apply ran_only; [intros; apply ran_step; [reflexivity|assumption] |]. reflexivity.
Qed.
