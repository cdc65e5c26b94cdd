(** The state of the check as a function of the cycle: invariant over all histories. *)
From Verif Require Import Words WordsFacts NodeModel MonModel MonSpec.
From Coq Require Import Lia.

Lemma count_app : forall {A} (p : A -> bool) l1 l2, count p (l1 ++ l2) = (count p l1 + count p l2)%nat.
Proof. intros. unfold count. rewrite filter_app, app_length. reflexivity. Qed.
Lemma count_one : forall {A} (p : A -> bool) e, count p [e] = if p e then 1%nat else 0%nat.
Proof. intros. unfold count. cbn. destruct (p e); reflexivity. Qed.
Lemma u16_succ : forall n, u16 (u16 (N.of_nat n) + 1) = u16 (N.of_nat (n + 1)).
Proof. intros. unfold u16. rewrite Nat2N.inj_add. rewrite N.add_mod_idemp_l by lia. reflexivity. Qed.
Lemma setc_same : forall {A} (f : cells A) p o v, setc f p o v p o = v.
Proof. intros. unfold setc. rewrite !Nat.eqb_refl. reflexivity. Qed.
Lemma setc_if : forall {A} (f : cells A) p o v p' o', setc f p o v p' o' = if ((p' =? p) && (o' =? o))%nat then v else f p' o'.
Proof. reflexivity. Qed.

(** last element satisfying [p] *)
Definition lastf {A} (p : A -> bool) (l : list A) : option A := fold_left (fun a e => if p e then Some e else a) l None.
Lemma lastf_app : forall {A} (p : A -> bool) l e, lastf p (l ++ [e]) = if p e then Some e else lastf p l.
Proof. intros. unfold lastf. rewrite fold_left_app. reflexivity. Qed.
Lemma lastf_filter : forall {A} (p : A -> bool) l a, filter p l = [a] -> lastf p l = Some a.
Proof.
  intros A p l a. induction l as [|x l IH] using rev_ind; intro H; [discriminate|].
  rewrite lastf_app. rewrite filter_app in H. cbn in H. destruct (p x).
  - destruct (filter p l) as [|y [|z l']]; cbn in H; [injection H as ->; reflexivity|discriminate|discriminate].
  - rewrite app_nil_r in H. auto.
Qed.
Definition mdlc (d0 : N) (w : list tev) : N := fold_left (fun d e => match fst e with MainReq d' _ => d' | _ => d end) w d0.
Definition ndlc (d0 : N) (w : list tev) : N := fold_left (fun d e => match fst e with MonReq d' _ => d' | _ => d end) w d0.
Lemma mdlc_app : forall d0 w e, mdlc d0 (w ++ [e]) = match fst e with MainReq d' _ => d' | _ => mdlc d0 w end.
Proof. intros. unfold mdlc. rewrite fold_left_app. reflexivity. Qed.
Lemma ndlc_app : forall d0 w e, ndlc d0 (w ++ [e]) = match fst e with MonReq d' _ => d' | _ => ndlc d0 w end.
Proof. intros. unfold ndlc. rewrite fold_left_app. reflexivity. Qed.

Definition good (w : list tev) : Prop := Forall (fun e => no_apprx (fst e)) w /\ Forall (fun e => frame_ok (fst e)) w.
Lemma good_app : forall w e, good (w ++ [e]) -> good w /\ no_apprx (fst e) /\ frame_ok (fst e).
Proof.
  intros w e [A B]. apply Forall_app in A, B. destruct A as [A A'], B as [B B'].
  inversion A'; inversion B'; subst. repeat split; assumption.
Qed.

Section WithTable.
Variable c : mtab.

Definition txok (m : mmod) (p o : nat) (t : tobj) (e : tev) : bool := for_tx m p o t e && carries p o t e.

Record Inv (app cap : cells (list byte)) (w : list tev) (s : mon) : Prop := {
  i_mflag : b_mflag s = existsb (fun e => is_main_req (fst e)) w;
  i_nflag : b_nflag s = existsb (fun e => is_mon_req (fst e)) w;
  i_mcnt : b_mcnt s = u16 (N.of_nat (count (fun e => is_main_req (fst e)) w));
  i_ncnt : b_ncnt s = u16 (N.of_nat (count (fun e => is_mon_req (fst e)) w));
  i_mdlc : exists d0, b_mdlc s = mdlc d0 w;
  i_ndlc : exists d0, b_ndlc s = ndlc d0 w;
  i_mrx : forall p m o r, nth_error c p = Some m -> nth_error (mm_rx m) o = Some r ->
            b_mrx s p o = u16 (N.of_nat (count (on_main m p o r) w));
  i_nrx : forall p m o r, nth_error c p = Some m -> nth_error (mm_rx m) o = Some r ->
            b_nrx s p o = u16 (N.of_nat (count (on_mon m p o r) w));
  i_ntx : full c -> good w -> forall p m o t, nth_error c p = Some m -> nth_error (mm_tx m) o = Some t ->
            b_ntx s p o = u16 (N.of_nat (count (txok m p o t) w));
  i_apprx : full c -> good w -> forall p m o r e, nth_error c p = Some m -> nth_error (mm_rx m) o = Some r ->
            lastf (on_main m p o r) w = Some e -> take (ro_dlc r) (b_apprx s p o) = take (ro_dlc r) (ro_main r (data_of e) (ro_dlc r));
  i_monrx : full c -> good w -> forall p m o r e, nth_error c p = Some m -> nth_error (mm_rx m) o = Some r ->
            lastf (on_mon m p o r) w = Some e -> take (ro_dlc r) (b_monrx s p o) = take (ro_dlc r) (ro_mon r (data_of e) (ro_dlc r));
  i_app : forall p o, b_apptx s p o = app p o;
  i_cap : forall p m o t, nth_error c p = Some m -> nth_error (mm_tx m) o = Some t -> b_cap s p o = cap p o }.

Lemma inv0 : forall apprx app cap monrx, Inv app cap [] (mon0 apprx app cap monrx).
Proof.
  intros. constructor; cbn; try reflexivity; intros; try discriminate; try (exists 0; reflexivity).
Qed.

(** the send loop only takes a copy of the application's objects *)
Lemma send_objs_eq : forall l pos nr o s s' f, send_objs pos nr o l s = (s', f) ->
  exists X, s' = w_cap X s /\
    forall p' o', X p' o' = if ((p' =? pos) && (o <=? o') && (o' <? o + length l))%nat then b_apptx s pos o' else b_cap s p' o'.
Proof.
  induction l as [|t l IH]; intros pos nr o s s' f H; cbn [send_objs] in H.
  - injection H as <- <-. exists (b_cap s). split; [destruct s; reflexivity|].
    intros. cbn [length]. destruct ((p' =? pos) && (o <=? o') && (o' <? o + 0))%nat eqn:E; [|reflexivity].
    apply andb_prop in E. destruct E as [E1 E2]. apply andb_prop in E1. destruct E1 as [_ E1].
    apply Nat.leb_le in E1. apply Nat.ltb_lt in E2. lia.
  - destruct (send_objs pos nr (S o) l _) as [s2 f2] eqn:E2. injection H as <- <-.
    apply IH in E2. destruct E2 as (X & -> & HX). exists X. split; [destruct s; reflexivity|].
    intros p' o'. rewrite HX. cbn [length b_apptx b_cap w_cap]. rewrite setc_if.
    destruct (Nat.eqb_spec p' pos) as [->|N1]; cbn [andb]; [|reflexivity].
    destruct (Nat.leb_spec (S o) o'), (Nat.leb_spec o o'), (Nat.ltb_spec o' (S o + length l)), (Nat.ltb_spec o' (o + S (length l))),
      (Nat.eqb_spec o' o); cbn [andb]; try reflexivity; try lia; subst; reflexivity.
Qed.
Lemma send_all_eq : forall l pos s s' f, send_all pos l s = (s', f) ->
  exists X, s' = w_cap X s /\
    forall p' o', X p' o' = if (pos <=? p')%nat && (o' <? match nth_error l (p' - pos) with Some m => length (mm_tx m) | None => 0%nat end)%nat
                            then b_apptx s p' o' else b_cap s p' o'.
Proof.
  induction l as [|m l IH]; intros pos s s' f H; cbn [send_all] in H.
  - injection H as <- <-. exists (b_cap s). split; [destruct s; reflexivity|].
    intros. replace (nth_error (@nil mmod) (p' - pos)) with (@None mmod) by (destruct (p' - pos)%nat; reflexivity).
    rewrite Bool.andb_false_r. reflexivity.
  - destruct (send_objs pos (mm_nr m) 0 (mm_tx m) s) as [s1 f1] eqn:E1.
    destruct (send_all (S pos) l s1) as [s2 f2] eqn:E2. injection H as <- <-.
    apply send_objs_eq in E1. destruct E1 as (X1 & -> & HX1).
    apply IH in E2. destruct E2 as (X2 & -> & HX2).
    exists X2. split; [destruct s; reflexivity|].
    intros p' o'. rewrite HX2. cbn [b_apptx b_cap w_cap]. rewrite HX1.
    destruct (Nat.eqb_spec p' pos) as [->|N1].
    + replace (S pos <=? pos)%nat with false by (symmetry; apply Nat.leb_gt; lia).
      replace (pos <=? pos)%nat with true by (symmetry; apply Nat.leb_le; lia).
      rewrite Nat.sub_diag. cbn [nth_error andb Nat.add].
      replace (0 <=? o')%nat with true by reflexivity. cbn [andb]. reflexivity.
    + cbn [andb]. destruct (Nat.leb_spec (S pos) p'), (Nat.leb_spec pos p'); try lia; [|reflexivity].
      replace (p' - pos)%nat with (S (p' - S pos)) by lia. cbn [nth_error]. reflexivity.
Qed.
Lemma send_tab_eq : forall s s' f, send_all 0 c s = (s', f) ->
  exists X, s' = w_cap X s /\ forall p o, X p o = if (o <? ntx c p)%nat then b_apptx s p o else b_cap s p o.
Proof.
  intros s s' f H. apply send_all_eq in H. destruct H as (X & -> & HX). exists X. split; [reflexivity|].
  intros. rewrite HX. cbn. rewrite Nat.sub_0_r. reflexivity.
Qed.

Lemma nrx_lt : forall p m o r, nth_error c p = Some m -> nth_error (mm_rx m) o = Some r -> (o <? nrx c p)%nat = true.
Proof. intros p m o r Hp Ho. unfold nrx. rewrite Hp. apply Nat.ltb_lt. apply nth_error_Some. rewrite Ho. discriminate. Qed.
Lemma ntx_lt : forall p m o t, nth_error c p = Some m -> nth_error (mm_tx m) o = Some t -> (o <? ntx c p)%nat = true.
Proof. intros p m o r Hp Ho. unfold ntx. rewrite Hp. apply Nat.ltb_lt. apply nth_error_Some. rewrite Ho. discriminate. Qed.

Lemma inv_clear : forall app cap w s, Inv app cap w s -> Inv app cap [] (clear_image c s).
Proof.
  intros app cap w s I. destruct I.
  constructor; cbn [clear_image w_mrx w_nrx w_ntx w_main w_mon b_mflag b_nflag b_mcnt b_ncnt b_mdlc b_ndlc b_mrx b_nrx b_ntx b_apprx b_monrx b_apptx b_cap];
    try reflexivity; try assumption.
  - exists (b_mdlc s). reflexivity.
  - exists (b_ndlc s). reflexivity.
  - intros. rewrite (nrx_lt _ _ _ _ H H0). reflexivity.
  - intros. rewrite (nrx_lt _ _ _ _ H H0). reflexivity.
  - intros. rewrite (ntx_lt _ _ _ _ H1 H2). reflexivity.
  - intros. discriminate.
  - intros. discriminate.
Qed.

Lemma check_fst : forall now s, fst (check_image c now s) = if b_mflag s && b_nflag s then clear_image c s else s.
Proof.
  intros. unfold check_image. destruct (b_mflag s && b_nflag s); [|reflexivity].
  destruct (1 <? b_mdlc s); [reflexivity|]. destruct (1 <? b_ndlc s); [reflexivity|].
  destruct (negb (b_mcnt s =? 1)); [reflexivity|]. destruct (negb (b_ncnt s =? 1)); [reflexivity|].
  destruct (check_modules 0 c s now). reflexivity.
Qed.

(** the cycle in which request [e] is counted *)
Definition opened (w : list tev) : list tev := if both w then [] else w.
Lemma ext_req : forall w e cp, is_req e = true -> ext w (e, cp) = opened w ++ [(e, cp)].
Proof. intros. unfold ext, opened. cbn [fst]. rewrite H. cbn. destruct (both w); reflexivity. Qed.
Lemma ext_other : forall w e cp, is_req e = false -> ext w (e, cp) = w ++ [(e, cp)].
Proof. intros. unfold ext. cbn [fst]. rewrite H. reflexivity. Qed.
Lemma inv_check : forall app cap w s now, Inv app cap w s -> Inv app cap (opened w) (fst (check_image c now s)).
Proof.
  intros app cap w s now I. rewrite check_fst. unfold opened, both. rewrite <- (i_mflag _ _ _ _ I), <- (i_nflag _ _ _ _ I).
  destruct (b_mflag s && b_nflag s); [eapply inv_clear; eassumption|assumption].
Qed.

Lemma existsb_app1 : forall {A} (p : A -> bool) l e, existsb p (l ++ [e]) = existsb p l || p e.
Proof. intros. rewrite existsb_app. cbn. rewrite Bool.orb_false_r. reflexivity. Qed.

(** events that touch none of the counters *)
Lemma cnt_neutral : forall {A} (p : A -> bool) l e, p e = false -> count p (l ++ [e]) = count p l.
Proof. intros. rewrite count_app, count_one, H. lia. Qed.

Ltac proj := cbn [rx_process_main rx_process_mon w_mrx w_nrx w_ntx w_main w_mon w_apprx w_apptx w_cap w_monrx b_mflag b_nflag b_mcnt b_ncnt b_mdlc b_ndlc b_mrx b_nrx b_ntx b_apprx b_monrx b_apptx b_cap].
Ltac neutral :=
  first [ rewrite existsb_app1; cbn [fst is_main_req is_mon_req]; rewrite ?Bool.orb_false_r; assumption
        | rewrite cnt_neutral by reflexivity; assumption ].

Lemma inv_mainreq : forall app cap w s s2 f dlc now, Inv app cap w s -> send_all 0 c s = (s2, f) ->
  Inv app app (w ++ [(MainReq dlc now, cap)]) (rx_process_main dlc s2).
Proof.
  intros app cap w s s2 f dlc now I H. apply send_tab_eq in H. destruct H as (X & -> & HX). destruct I.
  constructor; proj.
  - rewrite existsb_app1. cbn. rewrite Bool.orb_true_r. reflexivity.
  - neutral.
  - rewrite i_mcnt0, u16_succ, count_app, count_one. reflexivity.
  - neutral.
  - exists 0. rewrite mdlc_app. reflexivity.
  - destruct i_ndlc0 as [d0 E]. exists d0. rewrite ndlc_app. exact E.
  - intros. rewrite cnt_neutral by reflexivity. eauto.
  - intros. rewrite cnt_neutral by reflexivity. eauto.
  - intros F G. apply good_app in G. destruct G as (G & _). intros. rewrite cnt_neutral by reflexivity. eauto.
  - intros F G. apply good_app in G. destruct G as (G & _). intros p m o r e Hp Ho. rewrite lastf_app. eauto.
  - intros F G. apply good_app in G. destruct G as (G & _). intros p m o r e Hp Ho. rewrite lastf_app. eauto.
  - assumption.
  - intros. rewrite HX, (ntx_lt _ _ _ _ H H0). apply i_app0.
Qed.
Lemma inv_monreq : forall app cap w s dlc now, Inv app cap w s -> Inv app cap (w ++ [(MonReq dlc now, cap)]) (rx_process_mon dlc s).
Proof.
  intros app cap w s dlc now I. destruct I. constructor; proj; try assumption.
  - neutral.
  - rewrite existsb_app1. cbn. rewrite Bool.orb_true_r. reflexivity.
  - neutral.
  - rewrite i_ncnt0, u16_succ, count_app, count_one. reflexivity.
  - destruct i_mdlc0 as [d0 E]. exists d0. rewrite mdlc_app. exact E.
  - exists 0. rewrite ndlc_app. reflexivity.
  - intros. rewrite cnt_neutral by reflexivity. eauto.
  - intros. rewrite cnt_neutral by reflexivity. eauto.
  - intros F G. apply good_app in G. destruct G as (G & _). intros. rewrite cnt_neutral by reflexivity. eauto.
  - intros F G. apply good_app in G. destruct G as (G & _). intros p m o r e Hp Ho. rewrite lastf_app. eauto.
  - intros F G. apply good_app in G. destruct G as (G & _). intros p m o r e Hp Ho. rewrite lastf_app. eauto.
Qed.

Lemma take_put : forall n new old, (N.to_nat n <= length new)%nat -> take n (put new old) = take n new.
Proof. intros. unfold take, put. rewrite firstn_app. replace (N.to_nat n - length new)%nat with 0%nat by lia. cbn. apply app_nil_r. Qed.
Lemma full_rx : full c -> forall p m o r, nth_error c p = Some m -> nth_error (mm_rx m) o = Some r ->
  writes_all (ro_main r) (ro_dlc r) /\ writes_all (ro_mon r) (ro_dlc r).
Proof.
  intros F p m o r Hp Ho. unfold full in F. rewrite Forall_forall in F. apply nth_error_In in Hp. apply F in Hp. destruct Hp as [Hp _].
  rewrite Forall_forall in Hp. apply Hp. eapply nth_error_In; eassumption.
Qed.
Lemma full_tx : full c -> forall p m o t, nth_error c p = Some m -> nth_error (mm_tx m) o = Some t -> writes_all (to_mon t) (to_dlc t).
Proof.
  intros F p m o r Hp Ho. unfold full in F. rewrite Forall_forall in F. apply nth_error_In in Hp. apply F in Hp. destruct Hp as [_ Hp].
  rewrite Forall_forall in Hp. apply Hp. eapply nth_error_In; eassumption.
Qed.

(** a data frame for which nothing is counted *)
Lemma inv_idle : forall app cap w s e, Inv app cap w s -> is_req e = false ->
  (forall p m o r, nth_error c p = Some m -> nth_error (mm_rx m) o = Some r -> on_main m p o r (e, cap) = false /\ on_mon m p o r (e, cap) = false) ->
  (full c -> good (w ++ [(e, cap)]) -> forall p m o t, nth_error c p = Some m -> nth_error (mm_tx m) o = Some t -> txok m p o t (e, cap) = false) ->
  Inv app cap (w ++ [(e, cap)]) s.
Proof.
  intros app cap w s e I R Hrx Htx. destruct I.
  assert (R1 : is_main_req e = false) by (destruct e; cbn in *; congruence).
  assert (R2 : is_mon_req e = false) by (destruct e; cbn in *; congruence).
  constructor; try assumption.
  - rewrite existsb_app1. cbn [fst]. rewrite R1, Bool.orb_false_r. assumption.
  - rewrite existsb_app1. cbn [fst]. rewrite R2, Bool.orb_false_r. assumption.
  - rewrite cnt_neutral by (cbn [fst]; exact R1). assumption.
  - rewrite cnt_neutral by (cbn [fst]; exact R2). assumption.
  - destruct i_mdlc0 as [d0 E]. exists d0. rewrite mdlc_app. destruct e; cbn in *; congruence.
  - destruct i_ndlc0 as [d0 E]. exists d0. rewrite ndlc_app. destruct e; cbn in *; congruence.
  - intros. rewrite cnt_neutral by (eapply Hrx; eassumption). eauto.
  - intros. rewrite cnt_neutral by (eapply Hrx; eassumption). eauto.
  - intros F G p m o t Hp Ho. rewrite cnt_neutral by (eapply Htx; eassumption). apply good_app in G. destruct G as (G & _). eauto.
  - intros F G p m o r e' Hp Ho. rewrite lastf_app. replace (on_main m p o r (e, cap)) with false by (symmetry; eapply Hrx; eassumption).
    apply good_app in G. destruct G as (G & _). eauto.
  - intros F G p m o r e' Hp Ho. rewrite lastf_app. replace (on_mon m p o r (e, cap)) with false by (symmetry; eapply Hrx; eassumption).
    apply good_app in G. destruct G as (G & _). eauto.
Qed.

Lemma for_rx_hit : forall m p o r pos id dlc, for_rx m p o r pos id dlc = true ->
  p = pos /\ o = obj_of id /\ (rx_nr id =? mm_nr m) = true /\ (dlc =? ro_dlc r) = true.
Proof.
  intros m p o r pos id dlc H. unfold for_rx in H. apply andb_prop in H. destruct H as [H H3]. apply andb_prop in H. destruct H as [H H2].
  apply andb_prop in H. destruct H as [H0 H1]. apply Nat.eqb_eq in H0, H1. auto.
Qed.

Lemma inv_maindata : forall app cap w s s' pos id dlc data, Inv app cap w s -> rx_data_main c pos id dlc data s = Some s' ->
  Inv app cap (w ++ [(MainData pos id dlc data, cap)]) s'.
Proof.
  intros app cap w s s' pos id dlc data I H. unfold rx_data_main in H.
  destruct (nth_error c pos) as [m|] eqn:Em; [|discriminate].
  destruct (rx_nr id =? mm_nr m) eqn:En; cbn [negb] in H.
  2:{ injection H as <-. apply inv_idle; auto.
      intros p m' o r Hp Ho. split; [|reflexivity]. unfold on_main. cbn [fst].
      destruct (for_rx m' p o r pos id dlc) eqn:E; [|reflexivity]. apply for_rx_hit in E. destruct E as (-> & -> & E & _). congruence. }
  destruct (nth_error (mm_rx m) (obj_of id)) as [r0|] eqn:Er; [|discriminate].
  destruct (dlc =? ro_dlc r0) eqn:Ed; cbn [negb] in H; cbv zeta in H.
  2:{ injection H as <-. apply inv_idle; auto.
      intros p m' o r Hp Ho. split; [|reflexivity]. unfold on_main. cbn [fst].
      destruct (for_rx m' p o r pos id dlc) eqn:E; [|reflexivity]. apply for_rx_hit in E. destruct E as (-> & -> & _ & E). congruence. }
  injection H as <-. destruct I. apply N.eqb_eq in Ed. subst dlc.
  constructor; proj; try assumption.
  - neutral.
  - neutral.
  - neutral.
  - neutral.
  - destruct i_mdlc0 as [d0 E]. exists d0. rewrite mdlc_app. exact E.
  - destruct i_ndlc0 as [d0 E]. exists d0. rewrite ndlc_app. exact E.
  - intros p m' o r Hp Ho. rewrite setc_if, count_app, count_one. unfold on_main at 2. cbn [fst]. unfold for_rx.
    destruct (Nat.eqb_spec p pos) as [->|Np].
    + rewrite Nat.eqb_refl. rewrite (Nat.eqb_sym (obj_of id) o). destruct (Nat.eqb_spec o (obj_of id)) as [->|No]; cbn [andb].
      * assert (m' = m) as -> by congruence. assert (r = r0) as -> by congruence. rewrite En, N.eqb_refl. cbn [andb].
        rewrite (i_mrx0 _ _ _ _ Hp Ho). apply u16_succ.
      * rewrite Nat.add_0_r. eauto.
    + replace (pos =? p)%nat with false by (symmetry; apply Nat.eqb_neq; congruence). cbn [andb]. rewrite Nat.add_0_r. eauto.
  - intros. rewrite cnt_neutral by reflexivity. eauto.
  - intros F G. apply good_app in G. destruct G as (G & _). intros. rewrite cnt_neutral by reflexivity. eauto.
  - intros F G. apply good_app in G. destruct G as (G & _ & L). intros p m' o r e Hp Ho. rewrite lastf_app, setc_if.
    unfold on_main at 1. cbn [fst]. unfold for_rx.
    destruct (Nat.eqb_spec p pos) as [->|Np].
    + rewrite Nat.eqb_refl. rewrite (Nat.eqb_sym (obj_of id) o). destruct (Nat.eqb_spec o (obj_of id)) as [->|No]; cbn [andb].
      * assert (m' = m) as -> by congruence. assert (r = r0) as -> by congruence. rewrite En, N.eqb_refl. cbn [andb].
        intro E. injection E as <-. cbn [data_of fst]. apply take_put. eapply full_rx; eauto.
      * eauto.
    + replace (pos =? p)%nat with false by (symmetry; apply Nat.eqb_neq; congruence). cbn [andb]. eauto.
  - intros F G. apply good_app in G. destruct G as (G & _). intros p m' o r e Hp Ho. rewrite lastf_app. eauto.
Qed.
Lemma inv_mondata : forall app cap w s s' pos id dlc data, Inv app cap w s -> rx_data_mon c pos id dlc data s = Some s' ->
  Inv app cap (w ++ [(MonData pos id dlc data, cap)]) s'.
Proof.
  intros app cap w s s' pos id dlc data I H. unfold rx_data_mon in H.
  destruct (nth_error c pos) as [m|] eqn:Em; [|discriminate].
  destruct (rx_nr id =? mm_nr m) eqn:En; cbn [negb] in H.
  2:{ injection H as <-. apply inv_idle; auto.
      intros p m' o r Hp Ho. split; [reflexivity|]. unfold on_mon. cbn [fst].
      destruct (for_rx m' p o r pos id dlc) eqn:E; [|reflexivity]. apply for_rx_hit in E. destruct E as (-> & -> & E & _). congruence. }
  destruct (nth_error (mm_rx m) (obj_of id)) as [r0|] eqn:Er; [|discriminate].
  destruct (dlc =? ro_dlc r0) eqn:Ed; cbn [negb] in H; cbv zeta in H.
  2:{ injection H as <-. apply inv_idle; auto.
      intros p m' o r Hp Ho. split; [reflexivity|]. unfold on_mon. cbn [fst].
      destruct (for_rx m' p o r pos id dlc) eqn:E; [|reflexivity]. apply for_rx_hit in E. destruct E as (-> & -> & _ & E). congruence. }
  injection H as <-. destruct I. apply N.eqb_eq in Ed. subst dlc.
  constructor; proj; try assumption.
  - neutral.
  - neutral.
  - neutral.
  - neutral.
  - destruct i_mdlc0 as [d0 E]. exists d0. rewrite mdlc_app. exact E.
  - destruct i_ndlc0 as [d0 E]. exists d0. rewrite ndlc_app. exact E.
  - intros. rewrite cnt_neutral by reflexivity. eauto.
  - intros p m' o r Hp Ho. rewrite setc_if, count_app, count_one. unfold on_mon at 2. cbn [fst]. unfold for_rx.
    destruct (Nat.eqb_spec p pos) as [->|Np].
    + rewrite Nat.eqb_refl. rewrite (Nat.eqb_sym (obj_of id) o). destruct (Nat.eqb_spec o (obj_of id)) as [->|No]; cbn [andb].
      * assert (m' = m) as -> by congruence. assert (r = r0) as -> by congruence. rewrite En, N.eqb_refl. cbn [andb].
        rewrite (i_nrx0 _ _ _ _ Hp Ho). apply u16_succ.
      * rewrite Nat.add_0_r. eauto.
    + replace (pos =? p)%nat with false by (symmetry; apply Nat.eqb_neq; congruence). cbn [andb]. rewrite Nat.add_0_r. eauto.
  - intros F G. apply good_app in G. destruct G as (G & _). intros. rewrite cnt_neutral by reflexivity. eauto.
  - intros F G. apply good_app in G. destruct G as (G & _). intros p m' o r e Hp Ho. rewrite lastf_app. eauto.
  - intros F G. apply good_app in G. destruct G as (G & _ & L). intros p m' o r e Hp Ho. rewrite lastf_app, setc_if.
    unfold on_mon at 1. cbn [fst]. unfold for_rx.
    destruct (Nat.eqb_spec p pos) as [->|Np].
    + rewrite Nat.eqb_refl. rewrite (Nat.eqb_sym (obj_of id) o). destruct (Nat.eqb_spec o (obj_of id)) as [->|No]; cbn [andb].
      * assert (m' = m) as -> by congruence. assert (r = r0) as -> by congruence. rewrite En, N.eqb_refl. cbn [andb].
        intro E. injection E as <-. cbn [data_of fst]. apply take_put. eapply full_rx; eauto.
      * eauto.
    + replace (pos =? p)%nat with false by (symmetry; apply Nat.eqb_neq; congruence). cbn [andb]. eauto.
Qed.

Lemma for_tx_hit : forall m p o t pos id dlc data junk cap, for_tx m p o t (MonTx pos id dlc data junk, cap) = true ->
  p = pos /\ o = obj_of id /\ (tx_nr id =? mm_nr m) = true /\ (dlc =? to_dlc t) = true.
Proof.
  intros m p o r pos id dlc data junk cap H. unfold for_tx in H. cbn [fst] in H.
  apply andb_prop in H. destruct H as [H H3]. apply andb_prop in H. destruct H as [H H2].
  apply andb_prop in H. destruct H as [H0 H1]. apply Nat.eqb_eq in H0, H1. auto.
Qed.
Lemma same_eq : forall n a b, same n a b = bytes_eqb (take n b) (take n a).
Proof.
  intros. unfold same, bytes_eqb, take.
  destruct (list_eq_dec N.eq_dec (firstn (N.to_nat n) a) (firstn (N.to_nat n) b)), (list_eq_dec N.eq_dec (firstn (N.to_nat n) b) (firstn (N.to_nat n) a));
    congruence.
Qed.
Lemma inv_montx : forall app cap w s s' pos id dlc data junk, Inv app cap w s -> tx_data_mon c pos id dlc data junk s = Some s' ->
  Inv app cap (w ++ [(MonTx pos id dlc data junk, cap)]) s'.
Proof.
  intros app cap w s s' pos id dlc data junk I H. unfold tx_data_mon in H.
  destruct (nth_error c pos) as [m|] eqn:Em; [|discriminate].
  destruct (tx_nr id =? mm_nr m) eqn:En; cbn [negb] in H.
  2:{ injection H as <-. apply inv_idle; auto.
      intros F G p m' o t Hp Ho. unfold txok. destruct (for_tx m' p o t _) eqn:E; [|reflexivity].
      apply for_tx_hit in E. destruct E as (-> & -> & E & _). congruence. }
  destruct (nth_error (mm_tx m) (obj_of id)) as [t0|] eqn:Er; [|discriminate].
  destruct (dlc =? to_dlc t0) eqn:Ed; cbn [negb] in H; cbv zeta in H.
  2:{ injection H as <-. apply inv_idle; auto.
      intros F G p m' o t Hp Ho. unfold txok. destruct (for_tx m' p o t _) eqn:E; [|reflexivity].
      apply for_tx_hit in E. destruct E as (-> & -> & _ & E). congruence. }
  apply N.eqb_eq in Ed. subst dlc.
  assert (K : full c -> length data = 8%nat -> same (to_dlc t0) (b_cap s pos (obj_of id)) (put (to_mon t0 data (to_dlc t0)) junk) =
              carries pos (obj_of id) t0 (MonTx pos id (to_dlc t0) data junk, cap)).
  { intros F L. rewrite same_eq. unfold carries. cbn [data_of fst snd]. rewrite take_put by (eapply full_tx; eauto).
    rewrite (i_cap _ _ _ _ I _ _ _ _ Em Er). reflexivity. }
  destruct (same (to_dlc t0) _ _) eqn:Es.
  - injection H as <-. destruct I. constructor; proj; try assumption.
    + neutral.
    + neutral.
    + neutral.
    + neutral.
    + destruct i_mdlc0 as [d0 E]. exists d0. rewrite mdlc_app. exact E.
    + destruct i_ndlc0 as [d0 E]. exists d0. rewrite ndlc_app. exact E.
    + intros. rewrite cnt_neutral by reflexivity. eauto.
    + intros. rewrite cnt_neutral by reflexivity. eauto.
    + intros F G. apply good_app in G. destruct G as (G & _ & L). intros p m' o t Hp Ho. rewrite setc_if, count_app, count_one.
      destruct (Nat.eqb_spec p pos) as [->|Np]; [destruct (Nat.eqb_spec o (obj_of id)) as [->|No]|]; cbn [andb].
      * assert (m' = m) as -> by congruence. assert (t = t0) as -> by congruence. unfold txok at 2.
        replace (carries pos (obj_of id) t0 _) with true by (rewrite <- K by auto; reflexivity).
        unfold for_tx. cbn [fst]. rewrite !Nat.eqb_refl, En, N.eqb_refl. cbn [andb].
        rewrite (i_ntx0 F G _ _ _ _ Hp Ho). apply u16_succ.
      * replace (txok m' pos o t _) with false. { rewrite Nat.add_0_r. eauto. }
        symmetry. unfold txok. destruct (for_tx m' pos o t _) eqn:E; [|reflexivity]. apply for_tx_hit in E. destruct E as (_ & E & _). congruence.
      * replace (txok m' p o t _) with false. { rewrite Nat.add_0_r. eauto. }
        symmetry. unfold txok. destruct (for_tx m' p o t _) eqn:E; [|reflexivity]. apply for_tx_hit in E. destruct E as (E & _). congruence.
    + intros F G. apply good_app in G. destruct G as (G & _). intros p m' o r e Hp Ho. rewrite lastf_app. eauto.
    + intros F G. apply good_app in G. destruct G as (G & _). intros p m' o r e Hp Ho. rewrite lastf_app. eauto.
  - injection H as <-. apply inv_idle; auto.
    intros F G p m' o t Hp Ho. apply good_app in G. destruct G as (G & _ & L).
    unfold txok. destruct (for_tx m' p o t _) eqn:E; [|reflexivity]. apply for_tx_hit in E. destruct E as (-> & -> & _ & _).
    assert (t = t0) as -> by congruence. rewrite <- K by auto. reflexivity.
Qed.

Definition app_after (e : mev) (app : cells (list byte)) : cells (list byte) := match e with AppTx p o x => setc app p o x | _ => app end.
Definition cap_after (e : mev) (app cap : cells (list byte)) : cells (list byte) := match e with MainReq _ _ => app | _ => cap end.
Lemma annotate_cons : forall app cap e h, annotate app cap (e :: h) = (e, cap) :: annotate (app_after e app) (cap_after e app cap) h.
Proof. intros. destruct e; reflexivity. Qed.

Lemma inv_step : forall app cap w s e s' o, Inv app cap w s -> mstep c e s = Some (s', o) ->
  Inv (app_after e app) (cap_after e app cap) (ext w (e, cap)) s'.
Proof.
  intros app cap w s e s' o I H. destruct e; cbn [mstep app_after cap_after] in *.
  - pose proof (inv_check _ _ _ _ now I) as I1. destruct (check_image c now s) as [s1 o1]. cbn [fst] in I1.
    destruct (send_all 0 c s1) as [s2 o2] eqn:E2. injection H as <- <-. rewrite ext_req by reflexivity. eapply inv_mainreq; eassumption.
  - pose proof (inv_check _ _ _ _ now I) as I1. destruct (check_image c now s) as [s1 o1]. cbn [fst] in I1.
    injection H as <- <-. rewrite ext_req by reflexivity. apply inv_monreq; assumption.
  - destruct (rx_data_main c pos id dlc data s) eqn:E; [|discriminate]. cbn in H. injection H as <- <-. rewrite ext_other by reflexivity.
    eapply inv_maindata; eassumption.
  - destruct (rx_data_mon c pos id dlc data s) eqn:E; [|discriminate]. cbn in H. injection H as <- <-. rewrite ext_other by reflexivity.
    eapply inv_mondata; eassumption.
  - destruct (tx_data_mon c pos id dlc data junk s) eqn:E; [|discriminate]. cbn in H. injection H as <- <-. rewrite ext_other by reflexivity.
    eapply inv_montx; eassumption.
  - injection H as <- <-. rewrite ext_other by reflexivity.
    assert (I2 : Inv app cap (w ++ [(AppTx pos obj x, cap)]) s) by (apply inv_idle; auto).
    destruct I2. constructor; proj; try assumption. intros p0 o0. rewrite !setc_if. rewrite i_app0. reflexivity.
  - injection H as <- <-. rewrite ext_other by reflexivity.
    assert (I2 : Inv app cap (w ++ [(AppRx pos obj x, cap)]) s) by (apply inv_idle; auto).
    destruct I2. constructor; proj; try assumption. intros F G. apply good_app in G. destruct G as (_ & [] & _).
Qed.
(** application data and captured data after a history *)
Fixpoint mem_after (h : list mev) (app cap : cells (list byte)) : cells (list byte) * cells (list byte) :=
  match h with [] => (app, cap) | e :: h' => mem_after h' (app_after e app) (cap_after e app cap) end.
Lemma inv_run : forall h app cap w s s' o, Inv app cap w s -> mrun c h s = Some (s', o) ->
  Inv (fst (mem_after h app cap)) (snd (mem_after h app cap)) (fold_left ext (annotate app cap h) w) s'.
Proof.
  induction h as [|e h IH]; intros app cap w s s' o I H; cbn [mrun] in H.
  - injection H as <- <-. exact I.
  - destruct (mstep c e s) as [[s1 o1]|] eqn:E1; [|discriminate]. destruct (mrun c h s1) as [[s2 o2]|] eqn:E2; [|discriminate].
    injection H as <- <-. rewrite annotate_cons. cbn [fold_left]. eapply IH; [|eassumption]. eapply inv_step; eassumption.
Qed.

(** ** the check *)
Lemma check_tx_iff : forall pos s n o, check_tx pos s o n = true <-> forall i, (i < n)%nat -> b_ntx s pos (o + i)%nat = 1.
Proof.
  intros pos s n. induction n as [|n IH]; intro o; cbn [check_tx].
  - split; [intros; lia|reflexivity].
  - destruct (b_ntx s pos o =? 1) eqn:E.
    + apply N.eqb_eq in E. rewrite IH. split; intros H i L.
      * destruct i; [rewrite Nat.add_0_r; exact E|]. replace (o + S i)%nat with (S o + i)%nat by lia. apply H. lia.
      * replace (S o + i)%nat with (o + S i)%nat by lia. apply H. lia.
    + apply N.eqb_neq in E. split; [discriminate|]. intro H. exfalso. apply E. specialize (H 0%nat). rewrite Nat.add_0_r in H. apply H. lia.
Qed.
Lemma check_rx_iff : forall pos s l o, check_rx pos s o l = true <->
  forall i r, nth_error l i = Some r -> b_mrx s pos (o + i)%nat = 1 /\ b_nrx s pos (o + i)%nat = 1 /\ same (ro_dlc r) (b_monrx s pos (o + i)%nat) (b_apprx s pos (o + i)%nat) = true.
Proof.
  intros pos s l. induction l as [|r l IH]; intro o; cbn [check_rx].
  - split; [intros _ i r H; destruct i; discriminate|reflexivity].
  - destruct (b_mrx s pos o =? 1) eqn:E1; cbn [negb].
    2:{ apply N.eqb_neq in E1. split; [discriminate|]. intro H. specialize (H 0%nat r eq_refl). rewrite Nat.add_0_r in H. tauto. }
    destruct (b_nrx s pos o =? 1) eqn:E2; cbn [negb].
    2:{ apply N.eqb_neq in E2. split; [discriminate|]. intro H. specialize (H 0%nat r eq_refl). rewrite Nat.add_0_r in H. tauto. }
    destruct (same (ro_dlc r) (b_monrx s pos o) (b_apprx s pos o)) eqn:E3; cbn [negb].
    2:{ split; [discriminate|]. intro H. specialize (H 0%nat r eq_refl). rewrite Nat.add_0_r in H. destruct H as (_ & _ & H). congruence. }
    apply N.eqb_eq in E1, E2. rewrite IH. split; intros H i r' L.
    + destruct i; [cbn in L; injection L as <-; rewrite Nat.add_0_r; auto|]. replace (o + S i)%nat with (S o + i)%nat by lia. apply H. exact L.
    + replace (S o + i)%nat with (o + S i)%nat by lia. apply H. exact L.
Qed.

Lemma u16_one : forall n, N.of_nat n < 65536 -> (u16 (N.of_nat n) = 1 <-> n = 1%nat).
Proof. intros. unfold u16. rewrite N.mod_small by lia. lia. Qed.
Lemma count_le : forall {A} (p : A -> bool) l, (count p l <= length l)%nat.
Proof. intros A p l. unfold count. induction l as [|x l IH]; cbn; [lia|]. destruct (p x); cbn; lia. Qed.
Lemma of_nat_le : forall a b, (a <= b)%nat -> N.of_nat a <= N.of_nat b.
Proof. intros. lia. Qed.
Lemma count1 : forall {A} (p : A -> bool) l, count p l = 1%nat <-> exists a, filter p l = [a].
Proof.
  intros. unfold count. split; intro H.
  - destruct (filter p l) as [|a [|b t]]; cbn in H; try lia. eauto.
  - destruct H as [a ->]. reflexivity.
Qed.
Lemma same_true : forall n a b, same n a b = true <-> take n a = take n b.
Proof.
  intros. unfold same, take. destruct (list_eq_dec N.eq_dec (firstn (N.to_nat n) a) (firstn (N.to_nat n) b)); split; intro H; congruence.
Qed.

Lemma check_module_iff : forall app cap w s pos m, Inv app cap w s -> full c -> good w -> N.of_nat (length w) < 65536 ->
  nth_error c pos = Some m -> (check_module pos m s = true <-> agree w pos m).
Proof.
  intros app cap w s pos m I F G L Hp. unfold check_module, agree.
  assert (T : check_tx pos s 0 (length (mm_tx m)) = true <->
              (forall o t, nth_error (mm_tx m) o = Some t -> count (fun e => for_tx m pos o t e && carries pos o t e) w = 1%nat)).
  { rewrite check_tx_iff. split.
    - intros H o t Ho. assert (Lo : (o < length (mm_tx m))%nat) by (apply nth_error_Some; congruence).
      specialize (H o Lo). cbn [Nat.add] in H. rewrite (i_ntx _ _ _ _ I F G _ _ _ _ Hp Ho) in H.
      apply u16_one in H; [exact H|]. eapply N.le_lt_trans; [apply of_nat_le, count_le|exact L].
    - intros H o Lo. cbn [Nat.add]. destruct (nth_error (mm_tx m) o) as [t|] eqn:Ho; [|apply nth_error_None in Ho; lia].
      rewrite (i_ntx _ _ _ _ I F G _ _ _ _ Hp Ho). apply u16_one; [eapply N.le_lt_trans; [apply of_nat_le, count_le|exact L]|]. apply (H o t Ho). }
  assert (R : check_rx pos s 0 (mm_rx m) = true <->
    (forall o r, nth_error (mm_rx m) o = Some r ->
     exists a b, filter (on_main m pos o r) w = [a] /\ filter (on_mon m pos o r) w = [b] /\
       take (ro_dlc r) (ro_main r (data_of a) (ro_dlc r)) = take (ro_dlc r) (ro_mon r (data_of b) (ro_dlc r)))).
  { rewrite check_rx_iff. cbn [Nat.add]. split; intros H o r Ho.
    - specialize (H o r Ho). destruct H as (H1 & H2 & H3).
      rewrite (i_mrx _ _ _ _ I _ _ _ _ Hp Ho) in H1. rewrite (i_nrx _ _ _ _ I _ _ _ _ Hp Ho) in H2.
      apply u16_one in H1; [|eapply N.le_lt_trans; [apply of_nat_le, count_le|exact L]].
      apply u16_one in H2; [|eapply N.le_lt_trans; [apply of_nat_le, count_le|exact L]].
      apply count1 in H1. apply count1 in H2. destruct H1 as [a Ha], H2 as [b Hb]. exists a, b. repeat split; auto.
      apply same_true in H3.
      rewrite (i_apprx _ _ _ _ I F G _ _ _ _ _ Hp Ho (lastf_filter _ _ _ Ha)) in H3.
      rewrite (i_monrx _ _ _ _ I F G _ _ _ _ _ Hp Ho (lastf_filter _ _ _ Hb)) in H3. congruence.
    - destruct (H o r Ho) as (a & b & Ha & Hb & E).
      rewrite (i_mrx _ _ _ _ I _ _ _ _ Hp Ho), (i_nrx _ _ _ _ I _ _ _ _ Hp Ho). unfold count. rewrite Ha, Hb.
      repeat split. apply same_true.
      rewrite (i_apprx _ _ _ _ I F G _ _ _ _ _ Hp Ho (lastf_filter _ _ _ Ha)).
      rewrite (i_monrx _ _ _ _ I F G _ _ _ _ _ Hp Ho (lastf_filter _ _ _ Hb)). congruence. }
  destruct (check_tx pos s 0 (length (mm_tx m))) eqn:E.
  - rewrite R. split; [intro H; split; [exact H|apply T; reflexivity]|tauto].
  - split; [discriminate|]. intros [_ H]. apply T in H. discriminate.
Qed.

Lemma check_modules_ok : forall l pos s now o all, check_modules pos l s now = (o, all) ->
  mverdicts o = map (fun i => (i, check_module i (nth (i - pos) l (MMod 0 [] [])) s)) (seq pos (length l)) /\
  filter is_image o = [] /\ (all = true <-> forall i m, nth_error l i = Some m -> check_module (pos + i) m s = true).
Proof.
  induction l as [|m l IH]; intros pos s now o all H; cbn [check_modules] in H.
  - injection H as <- <-. cbn. repeat split; auto. intros _ i m H. destruct i; discriminate.
  - destruct (check_modules (S pos) l s now) as [o1 a1] eqn:E. injection H as <- <-.
    apply IH in E. destruct E as (V & Im & A). cbn [mverdicts filter is_image length seq map]. repeat split.
    + rewrite Nat.sub_diag. cbn [nth]. f_equal. rewrite V. apply map_ext_in. intros i Hi. apply in_seq in Hi.
      replace (i - pos)%nat with (S (i - S pos)) by lia. reflexivity.
    + exact Im.
    + intros H i m' Hi. apply andb_prop in H. destruct H as [H1 H2]. destruct i as [|i]; cbn in Hi.
      * injection Hi as <-. rewrite Nat.add_0_r. exact H1.
      * replace (pos + S i)%nat with (S pos + i)%nat by lia. apply A; assumption.
    + intro H. apply andb_true_intro. split.
      * specialize (H 0%nat m eq_refl). rewrite Nat.add_0_r in H. exact H.
      * apply A. intros i m' Hi. specialize (H (S i) m' Hi). replace (pos + S i)%nat with (S pos + i)%nat in H by lia. exact H.
Qed.

Lemma count_pos : forall {A} (p : A -> bool) l, count p l = 1%nat -> existsb p l = true.
Proof.
  intros A p l. unfold count. induction l as [|x l IH]; cbn; [discriminate|]. destruct (p x); [reflexivity|exact IH].
Qed.
Lemma mdlc_one : forall w d0 a, filter (fun e => is_main_req (fst e)) w = [a] -> (mdlc d0 w <=? 1) = short_req (fst a).
Proof.
  intros w d0 a. induction w as [|x w IH] using rev_ind; intro H; [discriminate|].
  rewrite mdlc_app. rewrite filter_app in H. cbn [filter] in H. destruct x as [e cp]. cbn [fst] in *. destruct e; cbn [is_main_req] in H.
  { destruct (filter _ w) as [|y [|z l']]; cbn in H; [injection H as <-; reflexivity|discriminate|discriminate]. }
  all: rewrite app_nil_r in H; auto.
Qed.
Lemma ndlc_one : forall w d0 a, filter (fun e => is_mon_req (fst e)) w = [a] -> (ndlc d0 w <=? 1) = short_req (fst a).
Proof.
  intros w d0 a. induction w as [|x w IH] using rev_ind; intro H; [discriminate|].
  rewrite ndlc_app. rewrite filter_app in H. cbn [filter] in H. destruct x as [e cp]. cbn [fst] in *. destruct e; cbn [is_mon_req] in H.
  2:{ destruct (filter _ w) as [|y [|z l']]; cbn in H; [injection H as <-; reflexivity|discriminate|discriminate]. }
  all: rewrite app_nil_r in H; auto.
Qed.
Lemma filter_in1 : forall {A} (p : A -> bool) l a x, filter p l = [a] -> In x l -> p x = true -> x = a.
Proof. intros A p l a x H Hi Hx. assert (K : In x (filter p l)) by (apply filter_In; auto). rewrite H in K. destruct K as [K|[]]; auto. Qed.

(** the check speaks iff the cycle is regular *)
Definition speaks (s : mon) : bool :=
  b_mflag s && b_nflag s && negb (1 <? b_mdlc s) && negb (1 <? b_ndlc s) && (b_mcnt s =? 1) && (b_ncnt s =? 1).
Lemma speaks_iff : forall app cap w s, Inv app cap w s -> N.of_nat (length w) < 65536 -> (speaks s = true <-> regular w).
Proof.
  intros app cap w s I L. unfold speaks, regular.
  rewrite (i_mcnt _ _ _ _ I), (i_ncnt _ _ _ _ I), (i_mflag _ _ _ _ I), (i_nflag _ _ _ _ I).
  destruct (i_mdlc _ _ _ _ I) as [d1 E1], (i_ndlc _ _ _ _ I) as [d2 E2]. rewrite E1, E2, !N.ltb_antisym, !Bool.negb_involutive.
  assert (L1 : N.of_nat (count (fun e : tev => is_main_req (fst e)) w) < 65536) by (eapply N.le_lt_trans; [apply of_nat_le, count_le|exact L]).
  assert (L2 : N.of_nat (count (fun e : tev => is_mon_req (fst e)) w) < 65536) by (eapply N.le_lt_trans; [apply of_nat_le, count_le|exact L]).
  split.
  - intro H. rewrite !Bool.andb_true_iff in H. destruct H as (((((H1 & H2) & H3) & H4) & H5) & H6).
    apply N.eqb_eq in H5, H6. apply u16_one in H5, H6; try assumption. repeat split; auto.
    apply count1 in H5, H6. destruct H5 as [a Ha], H6 as [b Hb].
    rewrite (mdlc_one _ _ _ Ha) in H3. rewrite (ndlc_one _ _ _ Hb) in H4.
    apply Forall_forall. intros x Hx. destruct x as [e cp]. cbn [fst]. destruct e; try reflexivity.
    + rewrite <- (filter_in1 _ _ _ _ Ha Hx eq_refl) in H3. exact H3.
    + rewrite <- (filter_in1 _ _ _ _ Hb Hx eq_refl) in H4. exact H4.
  - intros (H1 & H2 & H3). rewrite (count_pos _ _ H1), (count_pos _ _ H2). rewrite H1, H2.
    apply count1 in H1, H2. destruct H1 as [a Ha], H2 as [b Hb]. rewrite (mdlc_one _ _ _ Ha), (ndlc_one _ _ _ Hb).
    rewrite Forall_forall in H3. rewrite (H3 a), (H3 b); [reflexivity| |].
    + eapply proj1. apply filter_In. rewrite Hb. left. reflexivity.
    + eapply proj1. apply filter_In. rewrite Ha. left. reflexivity.
Qed.
Lemma check_quiet : forall s now, speaks s = false -> snd (check_image c now s) = [].
Proof.
  intros s now H. unfold check_image. unfold speaks in H.
  destruct (b_mflag s && b_nflag s); [|reflexivity]. cbn [andb] in H.
  destruct (1 <? b_mdlc s); [reflexivity|]. destruct (1 <? b_ndlc s); [reflexivity|]. cbn [andb negb] in H.
  destruct (b_mcnt s =? 1); [|reflexivity]. destruct (b_ncnt s =? 1); [discriminate|reflexivity].
Qed.
Lemma mverdicts_app : forall a b, mverdicts (a ++ b) = mverdicts a ++ mverdicts b.
Proof. induction a as [|x a IH]; intro b; [reflexivity|]. destruct x; cbn; rewrite IH; reflexivity. Qed.
Lemma check_loud : forall s now, speaks s = true ->
  mverdicts (snd (check_image c now s)) = map (fun i => (i, check_module i (nth i c (MMod 0 [] [])) s)) (seq 0 (length c)) /\
  (count is_image (snd (check_image c now s)) = 1%nat <-> forall i m, nth_error c i = Some m -> check_module i m s = true) /\
  (count is_image (snd (check_image c now s)) <= 1)%nat.
Proof.
  intros s now H. unfold check_image. unfold speaks in H. rewrite !Bool.andb_true_iff in H.
  destruct H as (((((H1 & H2) & H3) & H4) & H5) & H6). rewrite H1, H2, H5, H6. cbn [andb negb].
  apply Bool.negb_true_iff in H3, H4. rewrite H3, H4.
  destruct (check_modules 0 c s now) as [o all] eqn:E. apply check_modules_ok in E. destruct E as (V & Im & A). cbn [snd].
  rewrite mverdicts_app, V, count_app. replace (count is_image o) with 0%nat by (unfold count; rewrite Im; reflexivity). split; [|split].
  - destruct all; cbn [mverdicts]; rewrite app_nil_r; apply map_ext; intro i; rewrite Nat.sub_0_r; reflexivity.
  - destruct all; cbn.
    + split; [intros _; apply A; reflexivity|reflexivity].
    + split; [discriminate|]. intro K. apply A in K. discriminate.
  - destruct all; cbn; lia.
Qed.

Lemma send_objs_obs : forall l pos nr o s s' f, send_objs pos nr o l s = (s', f) ->
  mverdicts f = [] /\ filter is_image f = [].
Proof.
  induction l as [|t l IH]; intros pos nr o s s' f H; cbn [send_objs] in H.
  - injection H as <- <-. auto.
  - destruct (send_objs pos nr (S o) l _) as [s2 f2] eqn:E2. injection H as <- <-. apply IH in E2. destruct E2 as [E2 E3].
    rewrite mverdicts_app, filter_app, E2, E3. destruct (to_main t _ _); split; reflexivity.
Qed.
Lemma send_all_obs : forall l pos s s' f, send_all pos l s = (s', f) -> mverdicts f = [] /\ filter is_image f = [].
Proof.
  induction l as [|m l IH]; intros pos s s' f H; cbn [send_all] in H.
  - injection H as <- <-. auto.
  - destruct (send_objs pos (mm_nr m) 0 (mm_tx m) s) as [s1 f1] eqn:E1. destruct (send_all (S pos) l s1) as [s2 f2] eqn:E2. injection H as <- <-.
    apply send_objs_obs in E1. apply IH in E2. destruct E1 as [E1 E1'], E2 as [E2 E2']. rewrite mverdicts_app, filter_app, E1, E1', E2, E2'. auto.
Qed.
Definition when (e : mev) : N := match e with MainReq _ n | MonReq _ n => n | _ => 0 end.
Lemma step_req : forall e s s' o, is_req e = true -> mstep c e s = Some (s', o) ->
  mverdicts o = mverdicts (snd (check_image c (when e) s)) /\ count is_image o = count is_image (snd (check_image c (when e) s)).
Proof.
  intros e s s' o R H. destruct e; try discriminate R; cbn [mstep when] in *.
  - destruct (check_image c now s) as [s1 o1]. destruct (send_all 0 c s1) as [s2 o2] eqn:E. injection H as <- <-. cbn [snd].
    apply send_all_obs in E. destruct E as [E1 E2]. rewrite mverdicts_app, E1, app_nil_r, count_app. split; [reflexivity|].
    unfold count at 2. rewrite E2. cbn. lia.
  - destruct (check_image c now s) as [s1 o1]. injection H as <- <-. auto.
Qed.
Lemma step_other : forall e s s' o, is_req e = false -> mstep c e s = Some (s', o) -> o = [].
Proof.
  intros e s s' o R H. destruct e; try discriminate R; cbn [mstep] in H.
  - destruct (rx_data_main c pos id dlc data s); [|discriminate]. injection H as <- <-. reflexivity.
  - destruct (rx_data_mon c pos id dlc data s); [|discriminate]. injection H as <- <-. reflexivity.
  - destruct (tx_data_mon c pos id dlc data junk s); [|discriminate]. injection H as <- <-. reflexivity.
  - injection H as <- <-. reflexivity.
  - injection H as <- <-. reflexivity.
Qed.
End WithTable.
