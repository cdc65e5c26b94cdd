(** Two runs that differ only in received bytes that are not counted in the current cycle. *)
From Verif Require Import Words NodeModel MonModel MonSpec MonProofs MonInit MonClrModel.
From Coq Require Import Lia.

Record Quiet (c : mtab) (s s' : mon) : Prop := {
  q_mf : b_mflag s = b_mflag s'; q_mc : b_mcnt s = b_mcnt s'; q_md : b_mdlc s = b_mdlc s';
  q_nf : b_nflag s = b_nflag s'; q_nc : b_ncnt s = b_ncnt s'; q_nd : b_ndlc s = b_ndlc s';
  q_mrx : b_mrx s = b_mrx s'; q_nrx : b_nrx s = b_nrx s'; q_ntx : b_ntx s = b_ntx s';
  q_apptx : b_apptx s = b_apptx s'; q_cap : forall p o, b_cap s p o = b_cap s' p o;
  q_rx : forall p m o r, nth_error c p = Some m -> nth_error (mm_rx m) o = Some r ->
    (b_mrx s p o <> 0 -> take (ro_dlc r) (b_apprx s p o) = take (ro_dlc r) (b_apprx s' p o)) /\
    (b_nrx s p o <> 0 -> take (ro_dlc r) (b_monrx s p o) = take (ro_dlc r) (b_monrx s' p o)) }.
Ltac qs := match goal with Q : Quiet _ _ _ |- Quiet _ _ _ => destruct Q; constructor; cbn; try congruence; try assumption end.

Lemma same_both : forall n a a' b b', take n a = take n a' -> take n b = take n b' -> same n a b = same n a' b'.
Proof. intros n a a' b b' H K. unfold same. unfold take in H, K. rewrite H, K. reflexivity. Qed.
Lemma qcrx : forall l pos s s' o, b_mrx s = b_mrx s' -> b_nrx s = b_nrx s' ->
  (forall i r, nth_error l i = Some r ->
     (b_mrx s pos (o + i)%nat <> 0 -> take (ro_dlc r) (b_apprx s pos (o + i)%nat) = take (ro_dlc r) (b_apprx s' pos (o + i)%nat)) /\
     (b_nrx s pos (o + i)%nat <> 0 -> take (ro_dlc r) (b_monrx s pos (o + i)%nat) = take (ro_dlc r) (b_monrx s' pos (o + i)%nat))) ->
  check_rx pos s o l = check_rx pos s' o l.
Proof.
  induction l as [|r l IH]; intros pos s s' o A B H; [reflexivity|]. cbn [check_rx]. rewrite <- A, <- B.
  destruct (N.eqb_spec (b_mrx s pos o) 1) as [E0|]; [|reflexivity]. destruct (N.eqb_spec (b_nrx s pos o) 1) as [E|]; [|reflexivity]. cbn [negb].
  pose proof (H 0%nat r eq_refl) as H0. rewrite Nat.add_0_r in H0. destruct H0 as [H1 H2].
  rewrite (same_both _ _ (b_monrx s' pos o) _ (b_apprx s' pos o)); [|apply H2; rewrite E; discriminate|apply H1; rewrite E0; discriminate].
  destruct (negb _); [reflexivity|]. apply IH; auto. intros i r' Hi. replace (S o + i)%nat with (o + S i)%nat by lia. apply H. exact Hi.
Qed.

Section Tab.
Variable c : mtab.
Lemma q_modules : forall l pos s s' now, Quiet c s s' -> (forall i m, nth_error l i = Some m -> nth_error c (pos + i) = Some m) ->
  check_modules pos l s now = check_modules pos l s' now.
Proof.
  induction l as [|m l IH]; intros pos s s' now Q H; [reflexivity|]. cbn [check_modules].
  rewrite (IH (S pos) s s' now Q) by (intros i m' Hi; replace (S pos + i)%nat with (pos + S i)%nat by lia; apply H; exact Hi).
  pose proof (H 0%nat m eq_refl) as Hm. rewrite Nat.add_0_r in Hm.
  replace (check_module pos m s') with (check_module pos m s); [reflexivity|]. unfold check_module.
  rewrite (ctx_eq _ _ s s' 0) by (intros; rewrite (q_ntx _ _ _ Q); reflexivity).
  rewrite (qcrx _ _ s s' 0); [reflexivity|apply Q|apply Q|]. intros i r Hi. apply (q_rx _ _ _ Q _ _ _ _ Hm Hi).
Qed.
Lemma q_clear : forall s s', Quiet c s s' -> Quiet c (clear_image c s) (clear_image c s').
Proof.
  intros s s' Q. destruct Q. constructor; cbn; try congruence; try assumption.
  - rewrite q_mrx0. reflexivity.
  - rewrite q_nrx0. reflexivity.
  - rewrite q_ntx0. reflexivity.
  - intros p m o r Hp Ho. rewrite (nrx_lt _ _ _ _ _ Hp Ho). split; intro K; exfalso; apply K; reflexivity.
Qed.
Lemma q_image : forall s s' now, Quiet c s s' ->
  snd (check_image c now s) = snd (check_image c now s') /\ Quiet c (fst (check_image c now s)) (fst (check_image c now s')).
Proof.
  intros s s' now Q. rewrite !check_fst. rewrite <- (q_mf _ _ _ Q), <- (q_nf _ _ _ Q). split.
  - unfold check_image.
    rewrite <- (q_mf _ _ _ Q), <- (q_nf _ _ _ Q), <- (q_md _ _ _ Q), <- (q_nd _ _ _ Q), <- (q_mc _ _ _ Q), <- (q_nc _ _ _ Q).
    rewrite (q_modules c 0 s s' now Q) by (intros i m Hi; exact Hi).
    destruct (b_mflag s && b_nflag s); [|reflexivity].
    destruct (1 <? b_mdlc s); [reflexivity|]. destruct (1 <? b_ndlc s); [reflexivity|].
    destruct (negb (b_mcnt s =? 1)); [reflexivity|]. destruct (negb (b_ncnt s =? 1)); [reflexivity|].
    destruct (check_modules 0 c s' now). reflexivity.
  - destruct (b_mflag s && b_nflag s); [apply q_clear|]; exact Q.
Qed.

Hypothesis F : full c.
Lemma q_step : forall e s s', frame_ok e -> Quiet c s s' -> okm (mstep c e s) (mstep c e s') (Quiet c) eq.
Proof.
  intros e s s' G Q. destruct e as [dlc now|dlc now|pos id dlc data|pos id dlc data|pos id dlc data junk|pos obj x|pos obj x]; cbn [mstep].
  - destruct (q_image s s' now Q) as [I1 Q1].
    destruct (check_image c now s) as [s1 o1], (check_image c now s') as [s1' o1']. cbn [fst snd] in *.
    pose proof (sa_same c 0 s1 s1' (q_apptx _ _ _ Q1)) as J.
    destruct (send_all 0 c s1) as [s2 o2] eqn:E2, (send_all 0 c s1') as [s2' o2'] eqn:E2'. cbn [snd] in J. subst o2'.
    destruct (send_tab_eq _ _ _ _ E2) as (X & -> & HX). destruct (send_tab_eq _ _ _ _ E2') as (X' & -> & HX').
    cbn [okm]. split; [|congruence]. destruct Q1. constructor; cbn; try congruence; try assumption.
    intros p o. rewrite HX, HX', q_cap0, q_apptx0. reflexivity.
  - destruct (q_image s s' now Q) as [I1 Q1].
    destruct (check_image c now s) as [s1 o1], (check_image c now s') as [s1' o1']. cbn [fst snd] in *.
    cbn [okm]. split; [|congruence]. destruct Q1. constructor; cbn; try congruence; try assumption.
  - unfold rx_data_main. destruct (nth_error c pos) as [m|] eqn:Hp; [|exact I]. destruct (negb (rx_nr id =? mm_nr m)); [cbn; auto|].
    destruct (nth_error (mm_rx m) (obj_of id)) as [r|] eqn:Ho; [|exact I]. destruct (N.eqb_spec dlc (ro_dlc r)) as [->|]; cbn [negb]; [|cbn; auto].
    cbn [option_map okm]. split; [|reflexivity]. destruct Q. constructor; cbn; try congruence; try assumption.
    intros p m' q r' Hp' Ho'. destruct (q_rx0 _ _ _ _ Hp' Ho') as [K1 K2]. split; [|exact K2]. rewrite !setc_if.
    destruct (Nat.eqb_spec p pos) as [->|]; [|exact K1]. destruct (Nat.eqb_spec q (obj_of id)) as [->|]; cbn [andb]; [|exact K1].
    intros _. rewrite Hp in Hp'. injection Hp' as <-. rewrite Ho in Ho'. injection Ho' as <-.
    destruct (full_rx _ F _ _ _ _ Hp Ho) as [Wr _]. rewrite !take_put by (apply Wr; exact G). reflexivity.
  - unfold rx_data_mon. destruct (nth_error c pos) as [m|] eqn:Hp; [|exact I]. destruct (negb (rx_nr id =? mm_nr m)); [cbn; auto|].
    destruct (nth_error (mm_rx m) (obj_of id)) as [r|] eqn:Ho; [|exact I]. destruct (N.eqb_spec dlc (ro_dlc r)) as [->|]; cbn [negb]; [|cbn; auto].
    cbn [option_map okm]. split; [|reflexivity]. destruct Q. constructor; cbn; try congruence; try assumption.
    intros p m' q r' Hp' Ho'. destruct (q_rx0 _ _ _ _ Hp' Ho') as [K1 K2]. split; [exact K1|]. rewrite !setc_if.
    destruct (Nat.eqb_spec p pos) as [->|]; [|exact K2]. destruct (Nat.eqb_spec q (obj_of id)) as [->|]; cbn [andb]; [|exact K2].
    intros _. rewrite Hp in Hp'. injection Hp' as <-. rewrite Ho in Ho'. injection Ho' as <-.
    destruct (full_rx _ F _ _ _ _ Hp Ho) as [_ Wr]. rewrite !take_put by (apply Wr; exact G). reflexivity.
  - unfold tx_data_mon. destruct (nth_error c pos) as [m|]; [|exact I]. destruct (negb (tx_nr id =? mm_nr m)); [cbn; auto|].
    destruct (nth_error (mm_tx m) (obj_of id)) as [t|]; [|exact I]. destruct (negb (dlc =? to_dlc t)); [cbn; auto|].
    cbv zeta. rewrite <- (q_cap _ _ _ Q). destruct (same dlc (b_cap s pos _) _); cbn [option_map okm]; (split; [|reflexivity]); [|exact Q].
    destruct Q. constructor; cbn; try congruence; try assumption.
  - cbn [okm]. split; [|reflexivity]. destruct Q. constructor; cbn; try congruence; try assumption.
  - cbn [okm]. split; [|reflexivity]. destruct Q. constructor; cbn; try congruence; try assumption.
    intros p m' q r' Hp' Ho'. destruct (q_rx0 _ _ _ _ Hp' Ho') as [K1 K2]. split; [|exact K2]. rewrite !setc_if.
    destruct ((p =? pos) && (q =? obj))%nat; [reflexivity|exact K1].
Qed.
Lemma q_run : forall h s s', Forall frame_ok h -> Quiet c s s' -> option_map snd (mrun c h s) = option_map snd (mrun c h s').
Proof.
  induction h as [|e h IH]; intros s s' G Q; [reflexivity|]. inversion G; subst. cbn [mrun].
  pose proof (q_step e s s' H1 Q) as K. destruct (mstep c e s) as [[s1 o1]|], (mstep c e s') as [[s1' o1']|]; cbn [okm] in K; try contradiction; [|reflexivity].
  destruct K as [Q1 ->]. specialize (IH s1 s1' H2 Q1).
  destruct (mrun c h s1) as [[s2 o2]|], (mrun c h s1') as [[s2' o2']|]; cbn in *; congruence.
Qed.
End Tab.

(** ** what the function changes *)
Definition hit (pos : nat) (l : list robj) (o p q : nat) : bool := ((p =? pos) && (o <=? q) && (q <? o + length l))%nat.
Lemma clr_eq : forall l err pos o s s' ok, clr_objs err pos o l s = (s', ok) ->
  exists A B, s' = w_apprx A (w_monrx B s) /\
    (forall p q, p <> pos \/ (q < o)%nat \/ (o + length l <= q)%nat -> A p q = b_apprx s p q /\ B p q = b_monrx s p q) /\
    (ok = true -> forall i r, nth_error l i = Some r ->
       A pos (o + i)%nat = put (ro_main r zeros (ro_dlc r)) (b_apprx s pos (o + i)%nat) /\
       B pos (o + i)%nat = put (ro_mon r zeros (ro_dlc r)) (b_monrx s pos (o + i)%nat)) /\
    (ok = false -> exists i, (i < length l)%nat /\ (err (o + i)%nat false = true \/ err (o + i)%nat true = true)).
Proof.
  induction l as [|r l IH]; intros err pos o s s' ok H; cbn [clr_objs] in H.
  - injection H as <- <-. exists (b_apprx s), (b_monrx s). split; [destruct s; reflexivity|]. split; [auto|]. split; [intros _ i r Hi; destruct i; discriminate|discriminate].
  - destruct (err o false) eqn:E1.
    { injection H as <- <-. exists (setc (b_apprx s) pos o (put (ro_main r zeros (ro_dlc r)) (b_apprx s pos o))), (b_monrx s). split; [reflexivity|]. split; [|split; [discriminate|intros _; exists 0%nat; rewrite Nat.add_0_r; split; [cbn; lia|auto]]].
      intros p q K. split; [|reflexivity]. rewrite setc_if. destruct (Nat.eqb_spec p pos), (Nat.eqb_spec q o); cbn; try reflexivity. cbn in K. lia. }
    destruct (err o true) eqn:E2.
    { injection H as <- <-. exists (setc (b_apprx s) pos o (put (ro_main r zeros (ro_dlc r)) (b_apprx s pos o))), (setc (b_monrx s) pos o (put (ro_mon r zeros (ro_dlc r)) (b_monrx s pos o))). split; [reflexivity|]. split; [|split; [discriminate|intros _; exists 0%nat; rewrite Nat.add_0_r; split; [cbn; lia|auto]]].
      intros p q K. rewrite !setc_if. destruct (Nat.eqb_spec p pos), (Nat.eqb_spec q o); cbn; try (split; reflexivity). cbn in K. lia. }
    apply IH in H. destruct H as (A & B & -> & H1 & H2 & H3). exists A, B. split; [destruct s; reflexivity|]. split; [|split].
    + intros p q K. destruct (H1 p q) as [K1 K2]; [cbn in K; lia|]. cbn in K1, K2. rewrite K1, K2, !setc_if.
      destruct (Nat.eqb_spec p pos), (Nat.eqb_spec q o); cbn; try (split; reflexivity). cbn in K. lia.
    + intros K i r' Hi. destruct i as [|i]; cbn in Hi.
      * injection Hi as <-. rewrite Nat.add_0_r. destruct (H1 pos o) as [K1 K2]; [lia|]. cbn in K1, K2. rewrite K1, K2, !setc_same. split; reflexivity.
      * replace (o + S i)%nat with (S o + i)%nat by lia. destruct (H2 K i r' Hi) as [K1 K2]. cbn in K1, K2. cbn [Nat.add]. rewrite K1, K2, !setc_if.
        replace (S (o + i) =? o)%nat with false by (symmetry; apply Nat.eqb_neq; lia). rewrite Bool.andb_false_r. split; reflexivity.
    + intro K. destruct (H3 K) as (i & L & D). exists (S i). split; [cbn; lia|]. replace (o + S i)%nat with (S o + i)%nat by lia. exact D.
Qed.
Lemma clr_ok : forall l err pos o s, snd (clr_objs err pos o l s) = true -> forall i, (i < length l)%nat -> err (o + i)%nat false = false /\ err (o + i)%nat true = false.
Proof.
  induction l as [|r l IH]; intros err pos o s H i Hi; [cbn in Hi; lia|]. cbn [clr_objs] in H.
  destruct (err o false) eqn:E1; [discriminate|]. destruct (err o true) eqn:E2; [discriminate|].
  destruct i as [|i]; [rewrite Nat.add_0_r; auto|]. replace (o + S i)%nat with (S o + i)%nat by lia. apply (IH err pos (S o) _ H). cbn in Hi. lia.
Qed.
