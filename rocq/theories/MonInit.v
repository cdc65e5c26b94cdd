(** Two runs that differ only in the buffers of the comparison. *)
From Verif Require Import Words NodeModel MonModel MonSpec MonProofs MonInitModel MonInitSpec.
From Coq Require Import Lia.

(** equal up to the two buffers and the counters of own frames *)
Record Base (s s' : mon) : Prop := {
  e_mf : b_mflag s = b_mflag s'; e_mc : b_mcnt s = b_mcnt s'; e_md : b_mdlc s = b_mdlc s';
  e_nf : b_nflag s = b_nflag s'; e_nc : b_ncnt s = b_ncnt s'; e_nd : b_ndlc s = b_ndlc s';
  e_mrx : b_mrx s = b_mrx s'; e_nrx : b_nrx s = b_nrx s'; e_apprx : b_apprx s = b_apprx s'; e_apptx : b_apptx s = b_apptx s' }.
Ltac bs := match goal with B : Base _ _ |- Base _ _ => destruct B; constructor; cbn in *; congruence end.

(** equal buffers away from the first position *)
Definition Oth (s s' : mon) : Prop :=
  forall p o, p <> 0%nat -> b_cap s p o = b_cap s' p o /\ b_monrx s p o = b_monrx s' p o /\ b_ntx s p o = b_ntx s' p o.

Lemma same_l : forall n a a' b, take n a = take n a' -> same n a b = same n a' b.
Proof. intros n a a' b H. unfold same. unfold take in H. rewrite H. reflexivity. Qed.

Lemma ctx_eq : forall n pos s s' o, (forall i, (i < n)%nat -> b_ntx s pos (o + i)%nat = b_ntx s' pos (o + i)%nat) ->
  check_tx pos s o n = check_tx pos s' o n.
Proof.
  induction n as [|n IH]; intros pos s s' o H; [reflexivity|]. cbn [check_tx].
  pose proof (H 0%nat ltac:(lia)) as H0. rewrite Nat.add_0_r in H0. rewrite H0. destruct (b_ntx s' pos o =? 1); [|reflexivity].
  apply IH. intros i Hi. replace (S o + i)%nat with (o + S i)%nat by lia. apply H. lia.
Qed.
Lemma crx_eq : forall l pos s s' o, b_mrx s = b_mrx s' -> b_nrx s = b_nrx s' -> b_apprx s = b_apprx s' ->
  (forall i r, nth_error l i = Some r -> b_nrx s pos (o + i)%nat <> 0 ->
     take (ro_dlc r) (b_monrx s pos (o + i)%nat) = take (ro_dlc r) (b_monrx s' pos (o + i)%nat)) ->
  check_rx pos s o l = check_rx pos s' o l.
Proof.
  induction l as [|r l IH]; intros pos s s' o A B C H; [reflexivity|]. cbn [check_rx]. rewrite <- A, <- B, <- C.
  destruct (negb (b_mrx s pos o =? 1)); [reflexivity|]. destruct (N.eqb_spec (b_nrx s pos o) 1) as [E|E]; [|reflexivity]. cbn [negb].
  pose proof (H 0%nat r eq_refl) as H0. rewrite Nat.add_0_r in H0.
  rewrite (same_l _ _ (b_monrx s' pos o)) by (apply H0; rewrite E; discriminate).
  destruct (negb _); [reflexivity|]. apply IH; auto. intros i r' Hi. replace (S o + i)%nat with (o + S i)%nat by lia. apply H. exact Hi.
Qed.
Lemma cm_eq : forall pos m s s', b_mrx s = b_mrx s' -> b_nrx s = b_nrx s' -> b_apprx s = b_apprx s' ->
  (forall o, (o < length (mm_tx m))%nat -> b_ntx s pos o = b_ntx s' pos o) ->
  (forall o r, nth_error (mm_rx m) o = Some r -> b_nrx s pos o <> 0 -> take (ro_dlc r) (b_monrx s pos o) = take (ro_dlc r) (b_monrx s' pos o)) ->
  check_module pos m s = check_module pos m s'.
Proof.
  intros. unfold check_module. rewrite (ctx_eq _ _ s s' 0) by (intros; apply H2; assumption).
  rewrite (crx_eq _ _ s s' 0) by (auto). reflexivity.
Qed.

Lemma so_same : forall l pos nr o s s', b_apptx s = b_apptx s' -> snd (send_objs pos nr o l s) = snd (send_objs pos nr o l s').
Proof.
  induction l as [|t l IH]; intros pos nr o s s' H; [reflexivity|]. cbn [send_objs].
  match goal with |- context [send_objs pos nr (S o) l ?a] => match goal with |- context [send_objs pos nr (S o) l ?b] =>
    lazymatch a with b => fail | _ => pose proof (IH pos nr (S o) a b H) as K; destruct (send_objs pos nr (S o) l a), (send_objs pos nr (S o) l b) end end end.
  cbn in *. rewrite K, H. reflexivity.
Qed.
Lemma so_app : forall l pos nr o s, b_apptx (fst (send_objs pos nr o l s)) = b_apptx s.
Proof.
  intros. destruct (send_objs pos nr o l s) as [s' f] eqn:E. destruct (send_objs_eq _ _ _ _ _ _ _ E) as (X & -> & _). reflexivity.
Qed.
Lemma sa_same : forall l pos s s', b_apptx s = b_apptx s' -> snd (send_all pos l s) = snd (send_all pos l s').
Proof.
  induction l as [|m l IH]; intros pos s s' H; [reflexivity|]. cbn [send_all].
  pose proof (so_same (mm_tx m) pos (mm_nr m) 0 s s' H) as K.
  pose proof (so_app (mm_tx m) pos (mm_nr m) 0 s) as A. pose proof (so_app (mm_tx m) pos (mm_nr m) 0 s') as A'.
  destruct (send_objs pos (mm_nr m) 0 (mm_tx m) s) as [s1 f1], (send_objs pos (mm_nr m) 0 (mm_tx m) s') as [s1' f1']. cbn [fst snd] in *.
  pose proof (IH (S pos) s1 s1' ltac:(congruence)) as J.
  destruct (send_all (S pos) l s1), (send_all (S pos) l s1'). cbn in *. congruence.
Qed.

Section Tab.
Variable c : mtab.

Lemma base_clear : forall s s', Base s s' -> Base (clear_image c s) (clear_image c s').
Proof. intros s s' B. destruct B. constructor; cbn; try congruence; [rewrite e_mrx0|rewrite e_nrx0]; reflexivity. Qed.
Lemma base_check : forall s s' now, Base s s' -> Base (fst (check_image c now s)) (fst (check_image c now s')).
Proof.
  intros s s' now B. rewrite !check_fst. rewrite <- (e_mf _ _ B), <- (e_nf _ _ B).
  destruct (b_mflag s && b_nflag s); [apply base_clear|]; exact B.
Qed.
Lemma base_cap : forall s s' X X', Base s s' -> Base (w_cap X s) (w_cap X' s').
Proof. intros s s' X X' B. bs. Qed.

(** ** positions other than the first *)
Lemma oth_check : forall s s' now, Base s s' -> Oth s s' -> Oth (fst (check_image c now s)) (fst (check_image c now s')).
Proof.
  intros s s' now B O. rewrite !check_fst. rewrite <- (e_mf _ _ B), <- (e_nf _ _ B).
  destruct (b_mflag s && b_nflag s); [|exact O]. intros p o Hp. destruct (O p o Hp) as (O1 & O2 & O3).
  cbn. repeat split; try assumption. rewrite O3. reflexivity.
Qed.
Lemma oth_modules : forall l pos s s' now, Base s s' -> Oth s s' ->
  filter not_first (fst (check_modules pos l s now)) = filter not_first (fst (check_modules pos l s' now)) /\
  map fst (mverdicts (fst (check_modules pos l s now))) = map fst (mverdicts (fst (check_modules pos l s' now))).
Proof.
  induction l as [|m l IH]; intros pos s s' now B O; [split; reflexivity|]. cbn [check_modules].
  destruct (IH (S pos) s s' now B O) as [I1 I2].
  destruct (check_modules (S pos) l s now) as [o a], (check_modules (S pos) l s' now) as [o' a']. cbn [fst] in *.
  split; [|cbn; congruence]. cbn [filter]. destruct pos as [|pos]; cbn [not_first]; [exact I1|]. rewrite I1. f_equal. f_equal.
  apply cm_eq; try apply B; intros; destruct (O (S pos) o0 ltac:(lia)) as (O1 & O2 & O3); [exact O3|rewrite O2; reflexivity].
Qed.
Lemma oth_image : forall s s' now, Base s s' -> Oth s s' ->
  filter not_first (snd (check_image c now s)) = filter not_first (snd (check_image c now s')) /\
  map fst (mverdicts (snd (check_image c now s))) = map fst (mverdicts (snd (check_image c now s'))).
Proof.
  intros s s' now B O. unfold check_image.
  rewrite <- (e_mf _ _ B), <- (e_nf _ _ B), <- (e_md _ _ B), <- (e_nd _ _ B), <- (e_mc _ _ B), <- (e_nc _ _ B).
  destruct (b_mflag s && b_nflag s); [|split; reflexivity].
  destruct (1 <? b_mdlc s); [split; reflexivity|]. destruct (1 <? b_ndlc s); [split; reflexivity|].
  destruct (negb (b_mcnt s =? 1)); [split; reflexivity|]. destruct (negb (b_ncnt s =? 1)); [split; reflexivity|].
  destruct (oth_modules c 0 s s' now B O) as [I1 I2].
  destruct (check_modules 0 c s now) as [o a], (check_modules 0 c s' now) as [o' a']. cbn [fst snd] in *.
  rewrite !filter_app, !mverdicts_app, !map_app, I1, I2. split; destruct a, a'; reflexivity.
Qed.

Definition okm (r r' : option (mon * list mobs)) (P : mon -> mon -> Prop) (Q : list mobs -> list mobs -> Prop) : Prop :=
  match r, r' with Some (s, o), Some (s', o') => P s s' /\ Q o o' | None, None => True | _, _ => False end.
Definition like (o o' : list mobs) : Prop := filter not_first o = filter not_first o' /\ map fst (mverdicts o) = map fst (mverdicts o').
Lemma like_app : forall a a' b b', like a a' -> like b b' -> like (a ++ b) (a' ++ b').
Proof. intros a a' b b' [A1 A2] [B1 B2]. split; rewrite ?filter_app, ?mverdicts_app, ?map_app; congruence. Qed.
Lemma like_refl : forall a, like a a.
Proof. split; reflexivity. Qed.

Lemma oth_step : forall e s s', Base s s' -> Oth s s' -> okm (mstep c e s) (mstep c e s') (fun t t' => Base t t' /\ Oth t t') like.
Proof.
  intros e s s' B O. destruct e as [dlc now|dlc now|pos id dlc data|pos id dlc data|pos id dlc data junk|pos obj x|pos obj x]; cbn [mstep].
  - pose proof (base_check s s' now B) as B1. pose proof (oth_check s s' now B O) as O1. pose proof (oth_image s s' now B O) as I.
    destruct (check_image c now s) as [s1 o1], (check_image c now s') as [s1' o1']. cbn [fst snd] in *.
    pose proof (sa_same c 0 s1 s1' (e_apptx _ _ B1)) as J.
    destruct (send_all 0 c s1) as [s2 o2] eqn:E2, (send_all 0 c s1') as [s2' o2'] eqn:E2'. cbn [snd] in J. subst o2'.
    destruct (send_tab_eq _ _ _ _ E2) as (X & -> & HX). destruct (send_tab_eq _ _ _ _ E2') as (X' & -> & HX').
    cbn [okm]. split; [split|].
    + destruct B1. constructor; cbn; congruence.
    + intros p o Hp. destruct (O1 p o Hp) as (K1 & K2 & K3). cbn. rewrite HX, HX', K1, (e_apptx _ _ B1). auto.
    + apply like_app; [exact I|apply like_refl].
  - pose proof (base_check s s' now B) as B1. pose proof (oth_check s s' now B O) as O1. pose proof (oth_image s s' now B O) as I.
    destruct (check_image c now s) as [s1 o1], (check_image c now s') as [s1' o1']. cbn [fst snd] in *.
    cbn [okm]. split; [split|exact I].
    + destruct B1. constructor; cbn; congruence.
    + intros p o Hp. apply (O1 p o Hp).
  - unfold rx_data_main. destruct (nth_error c pos) as [m|]; [|exact I]. destruct (negb (rx_nr id =? mm_nr m)); [cbn; auto using like_refl|].
    destruct (nth_error (mm_rx m) (obj_of id)) as [r|]; [|exact I]. destruct (negb (dlc =? ro_dlc r)); [cbn; auto using like_refl|].
    cbn [option_map okm]. split; [split|apply like_refl]; [|intros p o Hp; apply (O p o Hp)].
    destruct B. constructor; cbn; congruence.
  - unfold rx_data_mon. destruct (nth_error c pos) as [m|]; [|exact I]. destruct (negb (rx_nr id =? mm_nr m)); [cbn; auto using like_refl|].
    destruct (nth_error (mm_rx m) (obj_of id)) as [r|]; [|exact I]. destruct (negb (dlc =? ro_dlc r)); [cbn; auto using like_refl|].
    cbn [option_map okm]. split; [split|apply like_refl].
    + destruct B. constructor; cbn; congruence.
    + intros p o Hp. destruct (O p o Hp) as (O1 & O2 & O3). cbn. rewrite !setc_if. repeat split; try assumption.
      destruct (Nat.eqb_spec p pos) as [->|]; [|assumption]. destruct (Nat.eqb_spec o (obj_of id)) as [->|]; cbn; [|assumption].
      rewrite O2. reflexivity.
  - unfold tx_data_mon. destruct (nth_error c pos) as [m|]; [|exact I]. destruct (negb (tx_nr id =? mm_nr m)); [cbn; auto using like_refl|].
    destruct (nth_error (mm_tx m) (obj_of id)) as [t|]; [|exact I]. destruct (negb (dlc =? to_dlc t)); [cbn; auto using like_refl|].
    cbv zeta. destruct (Nat.eq_dec pos 0) as [->|Np].
    + destruct (same dlc (b_cap s 0%nat _) _), (same dlc (b_cap s' 0%nat _) _); cbn [option_map okm]; (split; [split|apply like_refl]);
        try (destruct B; constructor; cbn; congruence); intros p o Hp; destruct (O p o Hp) as (O1 & O2 & O3); cbn; rewrite ?setc_if;
        (destruct (Nat.eqb_spec p 0); [contradiction|]); cbn; auto.
    + destruct (O pos (obj_of id) Np) as (K1 & K2 & K3). rewrite <- K1.
      destruct (same dlc (b_cap s pos _) _); cbn [option_map okm]; (split; [split|apply like_refl]);
        try (destruct B; constructor; cbn; congruence); intros p o Hp; destruct (O p o Hp) as (O1 & O2 & O3); cbn; rewrite ?setc_if; auto.
      rewrite K3, O3. auto.
  - cbn [okm]. split; [split|apply like_refl]; [|intros p o Hp; apply (O p o Hp)]. destruct B. constructor; cbn; congruence.
  - cbn [okm]. split; [split|apply like_refl]; [|intros p o Hp; apply (O p o Hp)]. destruct B. constructor; cbn; congruence.
Qed.
Lemma oth_run : forall h s s', Base s s' -> Oth s s' -> okm (mrun c h s) (mrun c h s') (fun _ _ => True) like.
Proof.
  induction h as [|e h IH]; intros s s' B O; [cbn; auto using like_refl|]. cbn [mrun].
  pose proof (oth_step e s s' B O) as K. destruct (mstep c e s) as [[s1 o1]|], (mstep c e s') as [[s1' o1']|]; cbn [okm] in *; try contradiction; [|exact I].
  destruct K as [[B1 O1] L1]. specialize (IH s1 s1' B1 O1).
  destruct (mrun c h s1) as [[s2 o2]|], (mrun c h s1') as [[s2' o2']|]; cbn [okm] in *; try contradiction; [|exact I].
  destruct IH as [_ L2]. split; [exact I|]. apply like_app; assumption.
Qed.

(** ** what the buffers held is forgotten *)
Definition CapEq (s s' : mon) : Prop := forall p o, (o <? ntx c p)%nat = true -> b_cap s p o = b_cap s' p o.
Definition Fix (s s' : mon) : Prop :=
  (forall p o, (o <? ntx c p)%nat = true -> b_ntx s p o = b_ntx s' p o) /\
  (forall p m o r, nth_error c p = Some m -> nth_error (mm_rx m) o = Some r -> b_nrx s p o <> 0 ->
     take (ro_dlc r) (b_monrx s p o) = take (ro_dlc r) (b_monrx s' p o)).

Lemma fix_clear : forall s s', Fix (clear_image c s) (clear_image c s').
Proof.
  intros s s'. split.
  - intros p o H. cbn. rewrite H. reflexivity.
  - intros p m o r Hp Ho. cbn. rewrite (nrx_lt _ _ _ _ _ Hp Ho). intro K. exfalso. apply K. reflexivity.
Qed.
Lemma fix_check : forall s s' now, Base s s' -> Fix s s' \/ b_mflag s && b_nflag s = true ->
  Fix (fst (check_image c now s)) (fst (check_image c now s')).
Proof.
  intros s s' now B K. rewrite !check_fst. rewrite <- (e_mf _ _ B), <- (e_nf _ _ B).
  destruct (b_mflag s && b_nflag s); [apply fix_clear|]. destruct K as [K|K]; [exact K|discriminate].
Qed.
Lemma cap_check : forall s s' now, Base s s' -> CapEq s s' -> CapEq (fst (check_image c now s)) (fst (check_image c now s')).
Proof.
  intros s s' now B K. rewrite !check_fst. rewrite <- (e_mf _ _ B), <- (e_nf _ _ B).
  destruct (b_mflag s && b_nflag s); exact K.
Qed.
Lemma fix_modules : forall l pos s s' now, Base s s' -> Fix s s' -> (forall i m, nth_error l i = Some m -> nth_error c (pos + i) = Some m) ->
  check_modules pos l s now = check_modules pos l s' now.
Proof.
  induction l as [|m l IH]; intros pos s s' now B F H; [reflexivity|]. cbn [check_modules].
  rewrite (IH (S pos) s s' now B F) by (intros i m' Hi; replace (S pos + i)%nat with (pos + S i)%nat by lia; apply H; exact Hi).
  pose proof (H 0%nat m eq_refl) as Hm. rewrite Nat.add_0_r in Hm.
  rewrite (cm_eq pos m s s'); [reflexivity|apply B|apply B|apply B| |].
  - intros o Ho. apply (proj1 F). unfold ntx. rewrite Hm. apply Nat.ltb_lt. exact Ho.
  - intros o r Ho. apply (proj2 F _ _ _ _ Hm Ho).
Qed.
Lemma fix_image : forall s s' now, Base s s' -> Fix s s' -> snd (check_image c now s) = snd (check_image c now s').
Proof.
  intros s s' now B F. unfold check_image.
  rewrite <- (e_mf _ _ B), <- (e_nf _ _ B), <- (e_md _ _ B), <- (e_nd _ _ B), <- (e_mc _ _ B), <- (e_nc _ _ B).
  rewrite (fix_modules c 0 s s' now B F) by (intros i m Hi; exact Hi).
  destruct (b_mflag s && b_nflag s); [|reflexivity].
  destruct (1 <? b_mdlc s); [reflexivity|]. destruct (1 <? b_ndlc s); [reflexivity|].
  destruct (negb (b_mcnt s =? 1)); [reflexivity|]. destruct (negb (b_ncnt s =? 1)); [reflexivity|].
  destruct (check_modules 0 c s' now). reflexivity.
Qed.

(** one step: what two runs have in common stays; a request on the main controller makes the captures equal, a request after
    both were seen makes the rest equal *)
Hypothesis F : full c.
Lemma fix_step : forall e s s' t o t' o', frame_ok e -> Base s s' -> mstep c e s = Some (t, o) -> mstep c e s' = Some (t', o') ->
  Base t t' /\
  (CapEq s s' \/ is_main_req e = true -> CapEq t t') /\
  (CapEq s s' -> Fix s s' \/ is_req e = true /\ b_mflag s && b_nflag s = true -> Fix t t') /\
  (CapEq s s' -> Fix s s' -> o = o') /\
  (is_main_req e = true -> b_mflag t = true) /\
  (is_mon_req e = true -> b_nflag t = true) /\
  (is_req e = false \/ b_mflag s && b_nflag s = false ->
     (b_mflag s = true -> b_mflag t = true) /\ (b_nflag s = true -> b_nflag t = true)).
Proof.
  intros e s s' t o t' o' G B H H'.
  destruct e as [dlc now|dlc now|pos id dlc data|pos id dlc data|pos id dlc data junk|pos obj x|pos obj x]; cbn [mstep] in H, H'.
  - pose proof (base_check s s' now B) as B1. pose proof (cap_check s s' now B) as C1. pose proof (fix_check s s' now B) as F1.
    pose proof (fix_image s s' now B) as I1. pose proof (check_fst c now s) as W.
    destruct (check_image c now s) as [s1 o1], (check_image c now s') as [s1' o1']. cbn [fst snd] in *.
    pose proof (sa_same c 0 s1 s1' (e_apptx _ _ B1)) as J.
    destruct (send_all 0 c s1) as [s2 o2] eqn:E2, (send_all 0 c s1') as [s2' o2'] eqn:E2'. cbn [snd] in J. subst o2'.
    destruct (send_tab_eq _ _ _ _ E2) as (X & -> & HX). destruct (send_tab_eq _ _ _ _ E2') as (X' & -> & HX').
    injection H as <- <-. injection H' as <- <-.
    split; [destruct B1; constructor; cbn; congruence|].
    split; [intros _ p q K; cbn; rewrite HX, HX', K, (e_apptx _ _ B1); reflexivity|].
    split; [intros _ K; apply F1; tauto|]. split; [intros _ K; rewrite (I1 K); reflexivity|].
    split; [reflexivity|]. split; [discriminate|]. intros [K|K]; [discriminate|]. rewrite K in W. subst s1. cbn. auto.
  - pose proof (base_check s s' now B) as B1. pose proof (cap_check s s' now B) as C1. pose proof (fix_check s s' now B) as F1.
    pose proof (fix_image s s' now B) as I1. pose proof (check_fst c now s) as W.
    destruct (check_image c now s) as [s1 o1], (check_image c now s') as [s1' o1']. cbn [fst snd] in *.
    injection H as <- <-. injection H' as <- <-.
    split; [destruct B1; constructor; cbn; congruence|].
    split; [intros [K|K]; [apply C1; exact K|discriminate]|].
    split; [intros _ K; apply F1; tauto|]. split; [intros _ K; apply (I1 K)|].
    split; [discriminate|]. split; [reflexivity|]. intros [K|K]; [discriminate|]. rewrite K in W. subst s1. cbn. auto.
  - unfold rx_data_main in H, H'. destruct (nth_error c pos) as [m|]; [|discriminate].
    destruct (negb (rx_nr id =? mm_nr m)).
    { injection H as <- <-. injection H' as <- <-. split; [exact B|]. cbn. intuition congruence. }
    destruct (nth_error (mm_rx m) (obj_of id)) as [r|]; [|discriminate]. destruct (negb (dlc =? ro_dlc r)).
    { injection H as <- <-. injection H' as <- <-. split; [exact B|]. cbn. intuition congruence. }
    injection H as <- <-. injection H' as <- <-. split; [destruct B; constructor; cbn; congruence|].
    split; [intros [K|K]; [exact K|discriminate]|]. split; [intros _ [K|[K _]]; [exact K|discriminate]|]. cbn. intuition congruence.
  - unfold rx_data_mon in H, H'. destruct (nth_error c pos) as [m|] eqn:Hp; [|discriminate].
    destruct (negb (rx_nr id =? mm_nr m)).
    { injection H as <- <-. injection H' as <- <-. split; [exact B|]. cbn. intuition congruence. }
    destruct (nth_error (mm_rx m) (obj_of id)) as [r|] eqn:Ho; [|discriminate]. destruct (N.eqb_spec dlc (ro_dlc r)) as [->|]; cbn [negb] in H, H'.
    2:{ injection H as <- <-. injection H' as <- <-. split; [exact B|]. cbn. intuition congruence. }
    injection H as <- <-. injection H' as <- <-. split; [destruct B; constructor; cbn; congruence|].
    split; [intros [K|K]; [exact K|discriminate]|]. split; [|cbn; intuition congruence].
    intros _ [[K1 K2]|[K _]]; [|discriminate]. split; [exact K1|]. intros p m' q r' Hp' Ho'. cbn. rewrite !setc_if.
    destruct (Nat.eqb_spec p pos) as [->|]; [|apply (K2 _ _ _ _ Hp' Ho')]. destruct (Nat.eqb_spec q (obj_of id)) as [->|]; cbn [andb]; [|apply (K2 _ _ _ _ Hp' Ho')].
    intros _. rewrite Hp in Hp'. injection Hp' as <-. rewrite Ho in Ho'. injection Ho' as <-.
    destruct (full_rx _ F _ _ _ _ Hp Ho) as [_ Wr]. rewrite !take_put by (apply Wr; exact G). reflexivity.
  - unfold tx_data_mon in H, H'. destruct (nth_error c pos) as [m|] eqn:Hp; [|discriminate].
    destruct (negb (tx_nr id =? mm_nr m)).
    { injection H as <- <-. injection H' as <- <-. split; [exact B|]. cbn. intuition congruence. }
    destruct (nth_error (mm_tx m) (obj_of id)) as [r|] eqn:Ho; [|discriminate]. destruct (negb (dlc =? to_dlc r)).
    { injection H as <- <-. injection H' as <- <-. split; [exact B|]. cbn. intuition congruence. }
    pose proof (ntx_lt _ _ _ _ _ Hp Ho) as L. cbv zeta in H, H'.
    assert (CK : CapEq s s' -> b_cap s pos (obj_of id) = b_cap s' pos (obj_of id)) by (intro K; apply K; exact L).
    destruct (same dlc (b_cap s pos (obj_of id)) _) eqn:S1; destruct (same dlc (b_cap s' pos (obj_of id)) _) eqn:S2;
      injection H as <- <-; injection H' as <- <-; (split; [destruct B; constructor; cbn; congruence|]);
      (split; [intros [K|K]; [exact K|discriminate]|]); (split; [|cbn; intuition congruence]).
    + intros _ [[K1 K2]|[K _]]; [|discriminate]. split; [|exact K2]. intros p q Hq. cbn. rewrite !setc_if, (K1 _ _ L), (K1 _ _ Hq). reflexivity.
    + intro K. rewrite (CK K) in S1. congruence.
    + intro K. rewrite (CK K) in S1. congruence.
    + intros _ [K|[K _]]; [exact K|discriminate].
  - injection H as <- <-. injection H' as <- <-. split; [destruct B; constructor; cbn; congruence|].
    split; [intros [K|K]; [exact K|discriminate]|]. split; [intros _ [K|[K _]]; [exact K|discriminate]|]. cbn. intuition congruence.
  - injection H as <- <-. injection H' as <- <-. split; [destruct B; constructor; cbn; congruence|].
    split; [intros [K|K]; [exact K|discriminate]|]. split; [intros _ [K|[K _]]; [exact K|discriminate]|]. cbn. intuition congruence.
Qed.

Lemma mrun_cons : forall e h s t o, mrun c (e :: h) s = Some (t, o) -> exists s1 o1 o2, mstep c e s = Some (s1, o1) /\ mrun c h s1 = Some (t, o2) /\ o = o1 ++ o2.
Proof.
  intros e h s t o H. cbn [mrun] in H. destruct (mstep c e s) as [[s1 o1]|]; [|discriminate]. destruct (mrun c h s1) as [[s2 o2]|] eqn:E; [|discriminate].
  injection H as <- <-. exists s1, o1, o2. auto.
Qed.
Lemma mrun_app : forall h1 h2 s t o, mrun c (h1 ++ h2) s = Some (t, o) -> exists s1 o1 o2, mrun c h1 s = Some (s1, o1) /\ mrun c h2 s1 = Some (t, o2) /\ o = o1 ++ o2.
Proof.
  induction h1 as [|e h1 IH]; intros h2 s t o H; [exists s, [], o; auto|]. apply mrun_cons in H. destruct H as (s1 & o1 & o2 & H1 & H2 & ->).
  apply IH in H2. destruct H2 as (s2 & o3 & o4 & H3 & H4 & ->). exists s2, (o1 ++ o3), o4. cbn [mrun]. rewrite H1, H3, app_assoc. auto.
Qed.

(** stages: equal captures with the first [k] of the two flags set, or everything equal *)
Definition Stage (k : nat) (s s' : mon) : Prop :=
  Base s s' /\ match k with
               | O => True
               | 1%nat => CapEq s s' /\ (Fix s s' \/ b_mflag s = true)
               | 2%nat => CapEq s s' /\ (Fix s s' \/ b_mflag s && b_nflag s = true)
               | _ => CapEq s s' /\ Fix s s'
               end.
Lemma stage_step : forall k e s s' t o t' o', frame_ok e -> Stage k s s' -> mstep c e s = Some (t, o) -> mstep c e s' = Some (t', o') -> Stage k t t'.
Proof.
  intros k e s s' t o t' o' G [B K] H H'. destruct (fix_step e s s' t o t' o' G B H H') as (B1 & C1 & F1 & _ & _ & _ & P1).
  split; [exact B1|]. destruct k as [|[|[|k]]]; [exact I| | |]; destruct K as [C K]; (split; [auto|]).
  - destruct K as [K|K]; [left; auto|]. destruct (is_req e) eqn:R; [|right; apply P1; auto].
    destruct (b_mflag s && b_nflag s) eqn:Q; [left; auto|right; apply P1; auto].
  - destruct K as [K|K]; [left; auto|]. destruct (is_req e) eqn:R; [left; auto|right].
    apply andb_prop in K. destruct K as [K1 K2]. destruct (P1 (or_introl eq_refl)) as [P2 P3]. rewrite P2, P3; auto.
  - auto.
Qed.
Lemma stage_run : forall k h s s' t o t' o', Forall frame_ok h -> Stage k s s' -> mrun c h s = Some (t, o) -> mrun c h s' = Some (t', o') -> Stage k t t'.
Proof.
  induction h as [|e h IH]; intros s s' t o t' o' G S H H'.
  - injection H as <- <-. injection H' as <- <-. exact S.
  - inversion G; subst. apply mrun_cons in H. apply mrun_cons in H'. destruct H as (s1 & o1 & o2 & A1 & A2 & ->). destruct H' as (s1' & o1' & o2' & A1' & A2' & ->).
    eapply IH; [eassumption| |eassumption|eassumption]. eapply stage_step; eassumption.
Qed.
Lemma stage_1 : forall d n s s' t o t' o', Stage 0 s s' -> mstep c (MainReq d n) s = Some (t, o) -> mstep c (MainReq d n) s' = Some (t', o') -> Stage 1 t t'.
Proof.
  intros d n s s' t o t' o' [B _] H H'. destruct (fix_step (MainReq d n) s s' t o t' o' I B H H') as (B1 & C1 & _ & _ & M1 & _).
  split; [exact B1|]. split; [apply C1; auto|right; apply M1; reflexivity].
Qed.
Lemma stage_2 : forall d n s s' t o t' o', Stage 1 s s' -> mstep c (MonReq d n) s = Some (t, o) -> mstep c (MonReq d n) s' = Some (t', o') -> Stage 2 t t'.
Proof.
  intros d n s s' t o t' o' [B [C K]] H H'. destruct (fix_step (MonReq d n) s s' t o t' o' I B H H') as (B1 & C1 & F1 & _ & _ & N1 & P1).
  split; [exact B1|]. split; [auto|]. destruct K as [K|K]; [left; auto|].
  destruct (b_mflag s && b_nflag s) eqn:Q; [left; apply F1; auto|right]. rewrite N1 by reflexivity. destruct (P1 (or_intror eq_refl)) as [P2 _]. rewrite P2; auto.
Qed.
Lemma stage_3 : forall e s s' t o t' o', frame_ok e -> is_req e = true -> Stage 2 s s' -> mstep c e s = Some (t, o) -> mstep c e s' = Some (t', o') -> Stage 3 t t'.
Proof.
  intros e s s' t o t' o' G R [B [C K]] H H'. destruct (fix_step e s s' t o t' o' G B H H') as (B1 & C1 & F1 & _).
  split; [exact B1|]. split; [auto|]. apply F1; [exact C|]. tauto.
Qed.
Lemma mstep_def : forall e s s', (exists x, mstep c e s = Some x) -> exists x, mstep c e s' = Some x.
Proof.
  intros e s s' [x H]. destruct e as [dlc now|dlc now|pos id dlc data|pos id dlc data|pos id dlc data junk|pos obj y|pos obj y]; cbn [mstep] in *.
  - destruct (check_image c now s'). destruct (send_all 0 c m). eauto.
  - destruct (check_image c now s'). eauto.
  - unfold rx_data_main in *. destruct (nth_error c pos); [|discriminate]. destruct (negb _); [cbn; eauto|]. destruct (nth_error (mm_rx m) _); [|discriminate]. destruct (negb _); cbn; eauto.
  - unfold rx_data_mon in *. destruct (nth_error c pos); [|discriminate]. destruct (negb _); [cbn; eauto|]. destruct (nth_error (mm_rx m) _); [|discriminate]. destruct (negb _); cbn; eauto.
  - unfold tx_data_mon in *. destruct (nth_error c pos); [|discriminate]. destruct (negb _); [cbn; eauto|]. destruct (nth_error (mm_tx m) _); [|discriminate]. destruct (negb _); cbn; eauto. destruct (same _ (b_cap s' _ _) _); cbn; eauto.
  - eauto.
  - eauto.
Qed.
Lemma stage_obs : forall h s s', Forall frame_ok h -> Stage 3 s s' -> option_map snd (mrun c h s) = option_map snd (mrun c h s').
Proof.
  induction h as [|e h IH]; intros s s' G S; [reflexivity|]. inversion G; subst. cbn [mrun].
  destruct (mstep c e s) as [[s1 o1]|] eqn:E1.
  - destruct (mstep_def e s s' (ex_intro _ _ E1)) as [[s1' o1'] E1']. rewrite E1'.
    pose proof (stage_step 3 e s s' _ _ _ _ H1 S E1 E1') as S1. specialize (IH s1 s1' H2 S1).
    destruct S as [B [C K]]. destruct (fix_step e s s' _ _ _ _ H1 B E1 E1') as (_ & _ & _ & O & _). rewrite (O C K).
    destruct (mrun c h s1) as [[s2 o2]|], (mrun c h s1') as [[s2' o2']|]; cbn in *; congruence.
  - destruct (mstep c e s') as [x|] eqn:E1'; [|reflexivity]. destruct (mstep_def e s' s (ex_intro _ _ E1')) as [y E]. congruence.
Qed.
Lemma forgotten : forall h1 d n h2 d' n' h3 e s s' t o t' o', Base s s' -> is_req e = true ->
  Forall frame_ok (h1 ++ [MainReq d n] ++ h2 ++ [MonReq d' n'] ++ h3 ++ [e]) ->
  mrun c (h1 ++ [MainReq d n] ++ h2 ++ [MonReq d' n'] ++ h3 ++ [e]) s = Some (t, o) ->
  mrun c (h1 ++ [MainReq d n] ++ h2 ++ [MonReq d' n'] ++ h3 ++ [e]) s' = Some (t', o') -> Stage 3 t t'.
Proof.
  intros h1 d n h2 d' n' h3 e s s' t o t' o' B R G H H'.
  apply Forall_app in G. destruct G as [G1 G]. apply Forall_app in G. destruct G as [_ G]. apply Forall_app in G. destruct G as [G2 G].
  apply Forall_app in G. destruct G as [_ G]. apply Forall_app in G. destruct G as [G3 G4]. inversion G4; subst.
  apply mrun_app in H. destruct H as (s1 & ? & ? & A1 & H & ->). apply mrun_app in H'. destruct H' as (s1' & ? & ? & A1' & H' & ->).
  apply mrun_cons in H. destruct H as (s2 & ? & ? & A2 & H & ->). apply mrun_cons in H'. destruct H' as (s2' & ? & ? & A2' & H' & ->).
  cbn [app] in H, H'.
  apply mrun_app in H. destruct H as (s3 & ? & ? & A3 & H & ->). apply mrun_app in H'. destruct H' as (s3' & ? & ? & A3' & H' & ->).
  apply mrun_cons in H. destruct H as (s4 & ? & ? & A4 & H & ->). apply mrun_cons in H'. destruct H' as (s4' & ? & ? & A4' & H' & ->).
  cbn [app] in H, H'.
  apply mrun_app in H. destruct H as (s5 & ? & ? & A5 & H & ->). apply mrun_app in H'. destruct H' as (s5' & ? & ? & A5' & H' & ->).
  apply mrun_cons in H. destruct H as (s6 & ? & ? & A6 & H & ->). apply mrun_cons in H'. destruct H' as (s6' & ? & ? & A6' & H' & ->).
  injection H as -> <-. injection H' as -> <-.
  assert (S0 : Stage 0 s s') by (split; [exact B|exact I]).
  pose proof (stage_run 0 h1 _ _ _ _ _ _ G1 S0 A1 A1') as S1. pose proof (stage_1 _ _ _ _ _ _ _ _ S1 A2 A2') as S2.
  pose proof (stage_run 1 h2 _ _ _ _ _ _ G2 S2 A3 A3') as S3. pose proof (stage_2 _ _ _ _ _ _ _ _ S3 A4 A4') as S4.
  pose proof (stage_run 2 h3 _ _ _ _ _ _ G3 S4 A5 A5') as S5. eapply stage_3; eassumption.
Qed.
End Tab.

Lemma reinit_base : forall s, Base s (sync_reinit s).
Proof. intro s. constructor; reflexivity. Qed.
Lemma reinit_oth : forall s, Oth s (sync_reinit s).
Proof. intros s p o Hp. cbn. destruct (Nat.eqb_spec p 0); [contradiction|]. auto. Qed.
