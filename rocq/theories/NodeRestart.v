(** A second initialisation: io_can.c:279-286 li_can_slv_deinit, followed by li_can_slv_init. *)
From Verif Require Import Words ErrModel NodeModel NodeLib NodeSpec NodeHw.

(** canpie_adapter/io_can_main_hw.c:118-129 can_main_hw_deinit: the driver is released (no message object has a filter, the
    controller is stopped), all message objects are marked free; nothing else is touched *)
Definition deinit (E : env) : M unit :=
  modify (upd_hw (fun h => set_h_drv (set_h_filt (set_h_used h (repeat false (NMSG E))) (repeat None (NMSG E))) 0)).
Definition restart (E : env) (rate : N) : M N := deinit E ;;; can_init E rate.

Section WithEnv.
Variable E : env.
Definition mos (s : node) : list bool * list (option (N * N)) := (h_used (n_hw s), h_filt (n_hw s)).
Definition defined (mo : nat) (f : option (N * N)) (x : list bool * list (option (N * N))) := (set_nth (fst x) mo true, set_nth (snd x) mo f).
Lemma define_ok mo id mask dlc rx sv sy s s' : define_obj E mo id mask dlc rx sv sy s = Ret (ERR_OK, s') ->
  mos s' = defined mo (if rx then Some (id, mask) else None) (mos s) /\ n_cfg s' = n_cfg s /\ n_sync s' = n_sync s.
Proof.
  unfold define_obj. intro H. destruct (CHKDEF E && negb (mo <? NMSG E)%nat); [discriminate|]. destruct (CHKDEF E && (2047 <? id)); [discriminate|]. destruct (CHKDEF E && (8 <? u8 dlc)); [discriminate|].
  apply andthen_inv in H. destruct H as (s1 & H1 & H2).
  assert (mos s1 = defined mo (if rx then Some (id, mask) else None) (mos s) /\ n_cfg s1 = n_cfg s /\ n_sync s1 = n_sync s) as K.
  { unfold hw_define in H1. mbind H1 as u t G. apply guard_inv in G. destruct G as [_ ->]. mbind H1 as u2 t2 G2. apply modify_inv in G2. subst t2.
    mbind H1 as ok t3 G3. unfold ask in G3. destruct ok; [|discriminate]. mbind H1 as u3 t4 G4. apply modify_inv in G4. apply ret_inv in H1. destruct H1 as [_ ->]. subst t4.
    cbn [n_orc upd_hw set_n_hw] in G3. destruct (n_orc s) as [|b r]; injection G3 as Q; subst; repeat split; reflexivity. }
  destruct K as (K1 & K2 & K3). destruct sv, sy; cbv beta iota in H2; mbind H2 as u t G; apply ret_inv in H2; destruct H2 as [_ ->];
    first [apply modify_inv in G; subst t|apply ret_inv in G; destruct G as [_ ->]]; rewrite <- K1, <- K2, <- K3; repeat split; reflexivity.
Qed.
(** the message objects after a successful initialisation *)
Definition init_mos : list bool * list (option (N * N)) :=
  let x1 := defined MO_SYS1 (Some (ID_SYS, MASK_ONE)) (defined MO_PROCESS (Some (ID_PROCESS, MASK_ONE)) (repeat false (NMSG E), repeat None (NMSG E))) in
  let x2 := if SYS2 E then defined MO_SYS2 (Some (ID_SYS, MASK_ONE)) x1 else x1 in
  let x3 := if ASY E then defined MO_ASYNC_DATA (Some (BASE_CTRL_RX, MASK_ONE)) x2 else x2 in
  defined MO_TX None x3.
Lemma init_effect rate s s' : can_init E rate s = Ret (ERR_OK, s') ->
  mos s' = init_mos /\ k_nmod (n_cfg s') = 0%nat /\ k_tab (n_cfg s') = map (fun m => set_m_type m (set_nth (m_type m) 0 0)) (k_tab (n_cfg s)) /\
  y_cbv (n_sync s') = repeat None (MAXM E) /\ y_cbn (n_sync s') = repeat None (MAXM E) /\ y_cbr (n_sync s') = repeat None (MAXM E) /\ y_per (n_sync s') = PMAX E.
Proof.
  unfold can_init. intro H. apply andthen_inv in H. destruct H as (s1 & H1 & H). apply andthen_inv in H. destruct H as (s2 & H2 & H). apply andthen_inv in H. destruct H as (s3 & H3 & H).
  unfold config_init in H1. mbind H1 as u1 t1 G1. apply modify_inv in G1. apply ret_inv in H1. destruct H1 as [_ ->]. subst t1.
  mbind H2 as u2 t2 G2. apply modify_inv in G2. apply ret_inv in H2. destruct H2 as [_ ->]. subst t2.
  unfold msg_objs_init in H3. mbind H3 as u3 t3 G3. apply modify_inv in G3. apply ret_inv in H3. destruct H3 as [_ ->].
  assert (mos t3 = (repeat false (NMSG E), repeat None (NMSG E)) /\ k_nmod (n_cfg t3) = 0%nat /\ k_tab (n_cfg t3) = map (fun m => set_m_type m (set_nth (m_type m) 0 0)) (k_tab (n_cfg s))) as (A1 & A2 & A3) by (subst t3; repeat split).
  clear G3. apply andthen_inv in H. destruct H as (s4 & H4 & H). apply andthen_inv in H. destruct H as (s5 & H5 & H). apply andthen_inv in H. destruct H as (s6 & H6 & H). apply andthen_inv in H. destruct H as (s7 & H7 & H).
  apply andthen_inv in H. destruct H as (s8 & H8 & H). apply andthen_inv in H. destruct H as (s9 & H9 & H).
  apply define_ok in H4, H5, H8. destruct H4 as (B1 & B2 & _), H5 as (C1 & C2 & _), H8 as (D1 & D2 & _).
  assert (mos s6 = (if SYS2 E then defined MO_SYS2 (Some (ID_SYS, MASK_ONE)) (mos s5) else mos s5) /\ n_cfg s6 = n_cfg s5) as (F1 & F2).
  { destruct (SYS2 E); [apply define_ok in H6; tauto|apply ret_inv in H6; destruct H6 as [_ ->]; split; reflexivity]. }
  assert (mos s7 = (if ASY E then defined MO_ASYNC_DATA (Some (BASE_CTRL_RX, MASK_ONE)) (mos s6) else mos s6) /\ n_cfg s7 = n_cfg s6) as (I1 & I2).
  { destruct (ASY E); [apply define_ok in H7; tauto|apply ret_inv in H7; destruct H7 as [_ ->]; split; reflexivity]. }
  unfold sys_init in H9. mbind H9 as u9 t9 G9. apply modify_inv in G9. apply ret_inv in H9. destruct H9 as [_ ->]. subst t9.
  unfold sync_init in H. mbind H as u10 t10 G10. apply modify_inv in G10. apply ret_inv in H. destruct H as [_ ->]. subst t10.
  split; [|split; [|split]].
  - change (mos s8 = init_mos). unfold init_mos. rewrite D1, I1, F1, C1, B1, A1. reflexivity.
  - cbn. rewrite D2, I2, F2, C2, B2. exact A2.
  - cbn. rewrite D2, I2, F2, C2, B2. exact A3.
  - repeat split; reflexivity.
Qed.
(** hooks and first requests *)
Lemma init_hooks rate s s' : can_init E rate s = Ret (ERR_OK, s') ->
  z_first (n_sys s') = false /\ z_cbs (n_sys s') = None /\ z_cbt (n_sys s') = z_cbt (n_sys s) /\ z_cbr (n_sys s') = z_cbr (n_sys s) /\
  k_silcb (n_cfg s') = k_silcb (n_cfg s) /\ y_cbp (n_sync s') = y_cbp (n_sync s) /\ y_cbf (n_sync s') = y_cbf (n_sync s) /\ y_first (n_sync s') = y_first (n_sync s).
Proof.
  intro H.
  pose (R := fun a b : node => z_cbt (n_sys b) = z_cbt (n_sys a) /\ z_cbr (n_sys b) = z_cbr (n_sys a) /\
    k_silcb (n_cfg b) = k_silcb (n_cfg a) /\ y_cbp (n_sync b) = y_cbp (n_sync a) /\ y_cbf (n_sync b) = y_cbf (n_sync a) /\ y_first (n_sync b) = y_first (n_sync a)).
  assert (Pre R) as HP. { split; unfold R; [intro x; repeat split|intros x y z (A1 & A2 & A3 & A4 & A5 & A6) (B1 & B2 & B3 & B4 & B5 & B6); repeat split; congruence]. }
  assert (R s s') as (R1 & R2 & R3 & R4 & R5 & R6).
  { assert (P : pres R (can_init E rate)) by (unfold can_init, config_init, msg_objs_init, define_obj, hw_define, sys_init, sync_init; pres_tac; unfold R; cbn; repeat split). eapply P, H. }
  assert (z_first (n_sys s') = false /\ z_cbs (n_sys s') = None) as [Z1 Z2].
  { unfold can_init in H. do 9 (apply andthen_inv in H; let t := fresh "t" in let G := fresh "G" in destruct H as (t & G & H)).
    match goal with G : sys_init _ = Ret (_, ?t) |- _ => assert (z_first (n_sys t) = false /\ z_cbs (n_sys t) = None) as Q;
      [unfold sys_init in G; mbind G as uu tx GG; apply modify_inv in GG; apply ret_inv in G; destruct G as [_ ->]; subst tx; split; reflexivity|] end.
    unfold sync_init in H. mbind H as u2 ty GH. apply modify_inv in GH. apply ret_inv in H. destruct H as [_ ->]. subst ty. exact Q. }
  repeat split; assumption.
Qed.
End WithEnv.
