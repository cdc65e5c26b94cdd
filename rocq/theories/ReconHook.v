(** Proofs about the callbacks of the search for the baud rate. *)
From Verif Require Import Words WordsFacts ReconModel ReconSpec ReconProofs ReconInv ReconHookSpec.

Lemma brackets_app a b q : brackets q (a ++ b) = match brackets q a with Some q' => brackets q' b | None => None end.
Proof. revert q. induction a as [|x a IH]; intro q; [reflexivity|]. destruct x, q; cbn; auto. Qed.

(** observations without callbacks *)
Definition mute (o : list robs) : Prop := Forall (fun x => match x with OMode _ | ORate _ | OTry _ | OProcessed => True | _ => False end) o.
Lemma mute_brackets o q : mute o -> brackets q o = Some q.
Proof. intro M. induction M as [|x o H _ IH]; [reflexivity|]. destruct x; try contradiction; exact IH. Qed.
Lemma mute_skip q a b : mute a -> brackets q (a ++ b) = brackets q b.
Proof. intro M. rewrite brackets_app, (mute_brackets a q M). reflexivity. Qed.
Lemma mute_if (b : bool) o : mute o -> mute (if b then o else []).
Proof. destruct b; [auto|constructor]. Qed.
Lemma mute_mode m : mute [OMode m].
Proof. repeat constructor. Qed.
Lemma mute_rate r : mute [ORate r].
Proof. repeat constructor. Qed.
Lemma mute_modes o : modes_only o -> mute o.
Proof. apply Forall_impl. intros []; tauto. Qed.
Lemma mute_nb h s : mute (nb_obs h s).
Proof. unfold nb_obs, mute. rewrite !Forall_app. repeat split; [destruct (ok_mode _ _)|destruct (ok_rate _ _)|apply Forall_cons; [exact I|destruct (ok_mode _ _)]]; fone. Qed.
Lemma mute_dl h s : mute (dl_obs h s).
Proof. unfold dl_obs, mute. rewrite !Forall_app. repeat split; [destruct (ok_mode _ _)|destruct (_ && _)|destruct (ok_mode _ _)]; fone. Qed.
Lemma mute_rx h f s s' o : rx h f s = (s', o) -> mute o.
Proof.
  intro P. apply rx_cases in P. destruct P as [(_ & _ & ->)|(_ & _ & [->|(r & _ & o' & -> & Q & _)])]; unfold mute; [constructor|fone|].
  apply Forall_cons; [exact I|]. revert Q. apply Forall_impl. intros []; tauto.
Qed.

(** the kind of a cause *)
Definition kind (c : rcause) : srch := match c with CNoTraffic | CStartup => OpenStartup | CMainEwrn | CMainBoff => OpenOnline | CDownload => Closed end.
Definition inv_hook (s : rec) (q : srch) : Prop :=
  match r_state s with
  | RDeactivated => False
  | ROff => q = Closed
  | RStartup => q = OpenStartup /\ kind (r_cause s) = OpenStartup
  | ROn | RIdle => q <> Closed /\ kind (r_cause s) = q
  end.
Lemma hook_pend p s q : inv_hook s q -> inv_hook (w_pend p s) q.
Proof. destruct s. auto. Qed.
Lemma off_brackets h s q : ok_mode h MOperational = true -> kind (r_cause s) = q -> q <> Closed -> brackets q (off_obs h s) = Some Closed.
Proof.
  intros A K N. unfold off_obs. rewrite A. rewrite (mute_skip _ _ _ (mute_if (ok_mode h MStopped) [OMode MStopped] (mute_mode _))).
  rewrite (mute_skip _ _ _ (mute_if (_ && _) [ORate _] (mute_rate _))). cbn. destruct (r_cause s); cbn in *; subst q; congruence || reflexivity.
Qed.
Lemma hook_pcase chk h p l now late sw s s' o q :
  ok_mode h MOperational = true -> pcase chk h p l now late sw s s' o -> inv_hook s q ->
  exists q', brackets q o = Some q' /\ inv_hook s' q'.
Proof.
  intros A P H. unfold inv_hook in H. destruct P as [N|E1 E2|E1 E2 E3|E1 E2 E3|E1 E2 E3|E1 E2|E1 E2 E3|E1 E2 E3 E4|E1 E2 E3 E4|E1 E2 E3 E4|E1 E2 E3|E1 E2|E1 E2];
  try (rewrite E2 in H); try (rewrite E3 in H); try (rewrite E4 in H); try (rewrite E1 in H).
  - exists q. split; [reflexivity|exact H].
  - destruct H as [-> K]. exists Closed. split; [|reflexivity]. apply off_brackets; [exact A|reflexivity|discriminate].
  - destruct H as [-> K]. exists Closed. split; [|reflexivity]. apply off_brackets; [exact A|reflexivity|discriminate].
  - destruct H as [-> K]. exists OpenStartup. split; [apply mute_brackets, mute_nb|]. cbn. split; [discriminate|reflexivity].
  - exists q. split; [apply mute_brackets, mute_nb|]. unfold inv_hook. cbn [r_state r_cause nb_state]. rewrite E2. exact H.
  - destruct H as [N K]. exists Closed. split; [|reflexivity]. apply off_brackets; assumption.
  - destruct H as [N K]. exists Closed. split; [|reflexivity]. apply off_brackets; assumption.
  - exists q. split; [reflexivity|]. unfold inv_hook. cbn [r_state r_cause w_lec0]. rewrite E3. exact H.
  - destruct H as [N K]. exists Closed. split; [|reflexivity]. apply off_brackets; assumption.
  - exists q. split; [reflexivity|]. unfold inv_hook. cbn [r_state r_cause w_lec0]. rewrite E4. exact H.
  - exists q. split; [apply mute_brackets, mute_nb|]. exact H.
  - exists q. split; [reflexivity|]. unfold inv_hook. cbn [r_state r_cause w_idle]. rewrite E1. exact H.
  - exists q. split; [reflexivity|]. exact H.
Qed.
Lemma on_state_facts h c late sw s : r_state (on_state h c late sw s) = ROn /\ r_cause (on_state h c late sw s) = c.
Proof. unfold on_state. cbn. split; reflexivity. Qed.
Lemma hook_step g e s s' o q :
  rstep g e s = (s', o) -> ev_operational e -> (match e with EStart _ _ => ~ searching s | _ => True end) -> inv_hook s q ->
  exists q', brackets q o = Some q' /\ inv_hook s' q'.
Proof.
  intros P A R H. apply step_cases in P.
  assert (OFF : is_off s = true -> q = Closed /\ r_state s = ROff).
  { unfold is_off. unfold inv_hook in H. destruct (r_state s); intro; try discriminate. auto. }
  destruct P; cbn [ev_operational] in A.
  - exists q. split; [reflexivity|]. destruct d; exact H.
  - exists Closed. assert (Q : q = Closed) by (unfold inv_hook in H; unfold searching in R; destruct (r_state s); tauto).
    subst q. split; [apply mute_brackets, mute_dl|reflexivity].
  - assert (Q : q = Closed) by (unfold inv_hook in H; unfold searching in R; destruct (r_state s); tauto).
    subst q. exists OpenStartup. split; [|split; reflexivity]. unfold st_obs.
    rewrite (mute_skip _ _ _ (mute_if (ok_mode h MStopped) [OMode MStopped] (mute_mode _))).
    rewrite (mute_skip _ _ _ (mute_if (_ && _) [ORate _] (mute_rate _))). cbn [brackets]. apply mute_brackets, mute_if, mute_mode.
  - exists q. split; [reflexivity|exact H].
  - exists q. split; [reflexivity|exact H].
  - destruct OFF as [-> O]; [assumption|]. exists Closed. split; [apply mute_brackets; eapply mute_rx; eassumption|].
    match goal with HH : same_r _ _ |- _ => rewrite HH end. unfold inv_hook. cbn. rewrite O. reflexivity.
  - destruct OFF as [-> O]; [assumption|]. exists Closed. split; [apply mute_brackets, mute_modes; assumption|].
    match goal with HH : same_m _ _ |- _ => rewrite HH end. unfold inv_hook. cbn. rewrite O. reflexivity.
  - destruct OFF as [-> O]; [assumption|].
    match goal with HH : pcase _ _ _ _ _ _ _ _ _ _ |- _ => destruct (hook_pcase _ _ _ _ _ _ _ _ _ _ OpenOnline A HH) as (q' & B & V) end.
    { assert (K : inv_hook (on_state h c late (g_sw g) s1) OpenOnline).
      { unfold inv_hook. destruct (on_state_facts h c late (g_sw g) s1) as [-> ->]. split; [discriminate|].
        match goal with HH : _ \/ _ |- _ => destruct HH as [->| ->] end; reflexivity. }
      destruct mid; [apply hook_pend|]; exact K. }
    exists q'. split; [|exact V]. rewrite mute_skip by (apply mute_modes; assumption).
    assert (ON : brackets Closed (on_obs h s) = Some OpenOnline).
    { unfold on_obs. cbn [brackets]. apply mute_brackets. unfold mute. rewrite !Forall_app. repeat split; [apply mute_modes, sm_modes|apply mute_modes, sm_modes|apply mute_nb]. }
    rewrite brackets_app, ON. rewrite mute_skip by (apply mute_modes; assumption). exact B.
  - match goal with HH : pcase _ _ _ _ _ _ _ _ _ _ |- _ => apply (hook_pcase _ _ _ _ _ _ _ _ _ _ q A HH) end. destruct mid; exact H.
Qed.
Lemma no_restart_snoc g es e : no_restart g (es ++ [e]) -> no_restart g es /\ match e with EStart _ _ => ~ searching (rend g rec_zero es) | _ => True end.
Proof.
  intro H. split.
  - intros a h late b ->. apply (H a h late (b ++ [e])). rewrite <- app_assoc. reflexivity.
  - destruct e; auto. apply (H es h late []). reflexivity.
Qed.
Lemma hook_all g es : Forall ev_operational es -> no_restart g es ->
  exists q, brackets Closed (obs_of (rruns g rec_zero es)) = Some q /\ inv_hook (rend g rec_zero es) q.
Proof.
  intros F. refine (proj2 (hist_ind g ev_operational (fun es tr s => s = rend g rec_zero es /\ (no_restart g es -> exists q, brackets Closed (obs_of tr) = Some q /\ inv_hook s q)) _ _ es F)).
  - split; [reflexivity|]. intros _. exists Closed. split; reflexivity.
  - intros es0 tr s e s' o [S1 IH] Q P. rewrite rend_snoc, <- S1, P. split; [reflexivity|]. intro NR.
    apply no_restart_snoc in NR. destruct NR as [NR EN]. rewrite <- S1 in EN. destruct (IH NR) as (q & B & V).
    destruct (hook_step g e s s' o q P Q EN V) as (q' & B' & V'). exists q'. split; [|exact V'].
    rewrite obs_snoc, brackets_app, B. exact B'.
Qed.

(** ** what is told at the end *)
Lemma off_told h s r : told r (off_obs h s) ->
  ok_mode h MOperational = true /\ r = r_bdr s /\ r_state (off_state h s) = ROff /\ r_hw (off_state h s) = MOperational /\
  (known_rate r = true -> ok_rate h r = true -> r_rate (off_state h s) = r).
Proof.
  intro T. destruct (ok_mode h MOperational) eqn:A.
  - assert (R : r = r_bdr s).
    { unfold told, off_obs in T. rewrite A in T. rewrite !in_app_iff in T. cbn [In] in T. unfold off_cbk in T.
      destruct (ok_mode h MStopped), (known_rate (r_bdr s) && ok_rate h (r_bdr s)), (r_cause s); cbn [In] in T;
      repeat match goal with HH : _ \/ _ |- _ => destruct HH | HH : False |- _ => destruct HH end; try discriminate; congruence. }
    split; [reflexivity|]. split; [exact R|]. subst r. cbn. rewrite A. repeat split. intros K O. rewrite K, O. reflexivity.
  - exfalso. unfold told, off_obs in T. rewrite A, app_nil_r in T. rewrite !in_app_iff in T.
    destruct (ok_mode h MStopped), (known_rate (r_bdr s) && ok_rate h (r_bdr s)); cbn [In] in T;
    repeat match goal with HH : _ \/ _ |- _ => destruct HH | HH : False |- _ => destruct HH end; discriminate.
Qed.
Lemma mute_told o r : mute o -> ~ told r o.
Proof. unfold mute, told. rewrite Forall_forall. intros M [H|H]; apply M in H; exact H. Qed.
Lemma told_app r a b : told r (a ++ b) <-> told r a \/ told r b.
Proof. unfold told. rewrite !in_app_iff. tauto. Qed.
Definition tell (h : hwo) (s' : rec) (r : N) : Prop :=
  r_state s' = ROff /\ r_hw s' = MOperational /\ (known_rate r = true -> ok_rate h r = true -> r_rate s' = r).
Lemma pcase_told chk h p l now late sw s s' o r : pcase chk h p l now late sw s s' o -> told r o -> tell h s' r.
Proof.
  intros P T. unfold tell. destruct P; try (exfalso; apply (mute_told _ r (mute_nb _ _) T)); try (destruct T as [T|T]; destruct T);
  apply off_told in T; destruct T as (_ & _ & T); exact T.
Qed.
