(** The message objects of the monitor: every object has one purpose. *)
From Verif Require Import Words WordsFacts ErrModel NodeModel NodeSpec NodeHw NodeMo MonModel MonCfgModel NodeCfg NodeSend MonCfgSpec.

Definition in_mask (s : mcfg) (tx : bool) (mo : nat) : bool := N.testbit (if tx then c_mmain s else c_mrx s) (N.of_nat mo).
Definition cfilt (s : mcfg) (mo : nat) : option (N * N) := nth mo (c_filt s) None.
Definition cused (s : mcfg) (mo : nat) : bool := nth mo (c_used s) false.
Definition role := (nat * bool * nat)%type.
Definition idfun := nat -> bool -> nat -> N.

Section Inv.
Variable E : menv.
Record Inv (R : list (nat * role)) (f : idfun) (s : mcfg) : Prop := {
  i_lu : length (c_used s) = NM E;
  i_lf : length (c_filt s) = NM E;
  i_nd : NoDup (map fst R);
  i_role : forall mo p tx o, In (mo, (p, tx, o)) R -> cused s mo = true /\ mo <> MON_PROCESS /\ mo <> MON_SYS1 /\ (p < length (c_tab s))%nat /\
    (o < objs (cat s p) tx)%nat /\ obj_mo (cat s p) tx o = mo /\ cfilt s mo = Some (f p tx o, 2047) /\ in_mask s tx mo = true;
  i_mask : forall mo tx, in_mask s tx mo = true -> exists p o, In (mo, (p, tx, o)) R;
  i_tab : forall mo p tx, In (mo, p) (table s tx) -> exists o, In (mo, (p, tx, o)) R;
  i_filt : forall mo x, cfilt s mo = Some x -> mo = MON_PROCESS /\ x = (1, 2047) \/ mo = MON_SYS1 /\ x = (2, 2047) \/ exists r, In (mo, r) R;
  i_fix : cused s MON_PROCESS = true /\ cused s MON_SYS1 = true;
  i_four : forall p, (p < length (c_tab s))%nat -> (cm_nrx (cat s p) <= 4)%nat /\ (cm_ntx (cat s p) <= 4)%nat /\ length (cm_rx (cat s p)) = 4%nat /\ length (cm_tx (cat s p)) = 4%nat;
  i_own : cfilt s MON_PROCESS = Some (1, 2047) /\ cfilt s MON_SYS1 = Some (2, 2047)
}.
Lemma role_one (R : list (nat * role)) mo r r' : NoDup (map fst R) -> In (mo, r) R -> In (mo, r') R -> r = r'.
Proof.
  induction R as [|[m x] R IH]; cbn; [tauto|]. intros N H H'. inversion N as [|? ? N1 N2]; subst. destruct H as [H|H], H' as [H'|H'].
  - congruence.
  - injection H as -> ->. exfalso. apply N1. apply (in_map fst) in H'. exact H'.
  - injection H' as -> ->. exfalso. apply N1. apply (in_map fst) in H. exact H.
  - apply IH; auto.
Qed.
Lemma used_lt s mo : length (c_used s) = NM E -> cused s mo = true -> (mo < NM E)%nat.
Proof. intros L U. rewrite <- L. destruct (Nat.lt_ge_cases mo (length (c_used s))) as [K|K]; [exact K|]. unfold cused in U. rewrite nth_overflow in U by exact K. discriminate. Qed.

Definition sv_tx (sv : msrv) : bool := match sv with IsrRxMain => true | IsrRx => false end.
Definition tx_sv (tx : bool) : msrv := if tx then IsrRxMain else IsrRx.
(** what a definition does *)
Lemma define_effect (HE : menv_ok E) mo id mask sv sync s e s' : mon_define E mo id mask sv sync s = Some (e, s') ->
  (mo < NM E)%nat /\ c_tab s' = c_tab s /\ (forall tx, table s' tx = table s tx) /\ c_used s' = set_nth (c_used s) mo true /\
  (e <> ERR_OK -> c_filt s' = c_filt s /\ forall tx k, in_mask s' tx k = in_mask s tx k) /\
  (e = ERR_OK -> c_filt s' = set_nth (c_filt s) mo (Some (id, mask)) /\ forall tx k, in_mask s' tx k = in_mask s tx k || (sync && Bool.eqb tx (sv_tx sv) && (k =? mo)%nat)).
Proof.
  unfold mon_define. destruct (Nat.ltb_spec mo (NM E)) as [L|L]; [|discriminate]. intro H.
  assert (mo < 32)%nat as L32 by (destruct HE as (_ & ? & ?); lia).
  assert (forall k, N.testbit (bit mo) (N.of_nat k) = (k =? mo)%nat) as B.
  { intro k. rewrite (bit_pow _ L32). destruct (Nat.eqb_spec k mo) as [->|Nk]; [apply N.pow2_bits_true|apply N.pow2_bits_false; lia]. }
  set (s1 := set_used _ s) in *. split; [exact L|].
  assert (exists good s2, (match c_orc s1 with [] => (true, s1) | b :: r => (b, set_orc r s1) end) = (good, s2) /\ c_tab s2 = c_tab s /\ c_rxtab s2 = c_rxtab s /\ c_txtab s2 = c_txtab s /\ c_used s2 = set_nth (c_used s) mo true /\ c_filt s2 = c_filt s /\ c_mrx s2 = c_mrx s /\ c_mmain s2 = c_mmain s) as (good & s2 & Q & T1 & T2 & T3 & T4 & T5 & T6 & T7)
    by (destruct (c_orc s1); do 2 eexists; (split; [reflexivity|]); repeat split).
  rewrite Q in H. destruct good.
  - injection H as <- <-. split; [destruct sync, sv; exact T1|]. split; [intros []; destruct sync, sv; assumption|]. split; [destruct sync, sv; exact T4|]. split; [intro X; congruence|]. intros _.
    split; [destruct sync, sv; cbn; rewrite T5; reflexivity|]. intros tx k. unfold in_mask. destruct sync, sv, tx; cbn; rewrite ?T6, ?T7, ?orb_false_r, ?N.lor_spec, ?B; reflexivity.
  - injection H as <- <-. split; [exact T1|]. split; [intros []; assumption|]. split; [exact T4|]. split; [|intro X; discriminate]. intros _. split; [exact T5|].
    intros tx k. unfold in_mask. rewrite T6, T7. reflexivity.
Qed.
Lemma cused_set s s' mo : c_used s' = set_nth (c_used s) mo true -> (forall k, cused s k = true -> cused s' k = true) /\ ((mo < length (c_used s))%nat -> cused s' mo = true) /\ (forall k, k <> mo -> cused s' k = cused s k).
Proof.
  intro U. unfold cused. rewrite U. split; [intros k; apply set_nth_true_grow|]. split; [intro L; apply nth_set_nth_same, L|]. intros k Nk. apply nth_set_nth_other. congruence.
Qed.
(** a definition that fails *)
Lemma Inv_mark (R : list (nat * role)) f s s' mo : Inv R f s -> c_used s' = set_nth (c_used s) mo true -> c_filt s' = c_filt s -> c_tab s' = c_tab s -> (forall tx, table s' tx = table s tx) -> (forall tx k, in_mask s' tx k = in_mask s tx k) -> Inv R f s'.
Proof.
  intros [A1 A2 A3 A4 A5 A6 A7 A8 A9 A10] U F T Tb M. destruct (cused_set s s' mo U) as (U1 & _ & _).
  assert (forall p, cat s' p = cat s p) as C by (intro p; unfold cat; rewrite T; reflexivity).
  constructor; auto.
  - rewrite U, set_nth_length. exact A1.
  - rewrite F. exact A2.
  - intros k p tx o H. rewrite C, T, M. unfold cfilt. rewrite F. destruct (A4 k p tx o H) as (B1 & B). split; [apply U1, B1|exact B].
  - intros k tx H. rewrite M in H. apply A5, H.
  - intros k p tx H. rewrite Tb in H. apply A6, H.
  - intros k x H. unfold cfilt in H. rewrite F in H. apply A7, H.
  - destruct A8. split; apply U1; assumption.
  - intros p H. rewrite C. rewrite T in H. apply A9, H.
  - unfold cfilt in *. rewrite F. exact A10.
Qed.
(** a new object, whose number is already stored in the module *)
Lemma Inv_new (HE : menv_ok E) R f s s' mo p tx o : Inv R f s -> cused s mo = false -> (p < length (c_tab s))%nat -> (o < objs (cat s p) tx)%nat -> obj_mo (cat s p) tx o = mo ->
  mon_define E mo (f p tx o) MASK_ONE (tx_sv tx) true s = Some (ERR_OK, s') -> Inv ((mo, (p, tx, o)) :: R) f s'.
Proof.
  intros [A1 A2 A3 A4 A5 A6 A7 A8 A9 A10] Um Lp Lo Hm H. apply (define_effect HE) in H. destruct H as (Lm & T & Tb & U & _ & H). destruct (H eq_refl) as [F M]. clear H.
  destruct (cused_set s s' mo U) as (U1 & U2 & U3). specialize (U2 ltac:(lia)).
  assert (forall q, cat s' q = cat s q) as C by (intro q; unfold cat; rewrite T; reflexivity).
  assert (forall k, k <> mo -> cfilt s' k = cfilt s k) as F2 by (intros k Nk; unfold cfilt; rewrite F; apply nth_set_nth_other; congruence).
  assert (cfilt s' mo = Some (f p tx o, MASK_ONE)) as F3 by (unfold cfilt; rewrite F; apply nth_set_nth_same; lia).
  assert (forall r, ~ In (mo, r) R) as Nm. { intros [[q tx'] o'] H. apply A4 in H. destruct H as (H & _). congruence. }
  assert (mo <> MON_PROCESS /\ mo <> MON_SYS1) as [N1 N4] by (split; intros ->; destruct A8; congruence).
  assert (in_mask s' tx mo = true) as M3 by (rewrite M, Nat.eqb_refl; destruct tx; cbn; apply orb_true_r).
  constructor.
  - rewrite U, set_nth_length. exact A1.
  - rewrite F, set_nth_length. exact A2.
  - cbn. constructor; [|exact A3]. intro H. apply in_map_iff in H. destruct H as ([k r] & Q & H). cbn in Q. subst k. exact (Nm r H).
  - intros k q tx' o' [H|H].
    + injection H as <- <- <- <-. rewrite C, T. repeat split; auto.
    + assert (k <> mo) as Nk by (intros ->; exact (Nm _ H)). rewrite C, T, (F2 k Nk), M. destruct (A4 k q tx' o' H) as (B1 & B2 & B3 & B4 & B5 & B6 & B7 & B8). rewrite B8. repeat split; auto.
  - intros k tx' H. rewrite M in H. apply orb_prop in H. destruct H as [H|H]; [apply A5 in H; destruct H as (q & o' & H); exists q, o'; right; exact H|].
    apply andb_prop in H. destruct H as [H Hk]. apply Nat.eqb_eq in Hk. subst k. assert (tx' = tx) as -> by (destruct tx, tx'; cbn in H; congruence). exists p, o. left. reflexivity.
  - intros k q tx' H. rewrite Tb in H. apply A6 in H. destruct H as (o' & H). exists o'. right. exact H.
  - intros k x H. destruct (Nat.eq_dec k mo) as [->|Nk]; [right; right; exists (p, tx, o); left; reflexivity|]. rewrite (F2 k Nk) in H. apply A7 in H. destruct H as [H|[H|(r & H)]]; auto. right. right. exists r. right. exact H.
  - destruct A8. split; apply U1; assumption.
  - intros q H. rewrite C. rewrite T in H. apply A9, H.
  - rewrite !F2 by congruence. exact A10.
Qed.
(** registration of an object that has its role *)
Definition set_table (tx : bool) (x : list (nat * nat)) (s : mcfg) : mcfg := if tx then set_txtab x s else set_rxtab x s.
Lemma Inv_reg R f s mo p tx o : Inv R f s -> In (mo, (p, tx, o)) R -> Inv R f (set_table tx (table s tx ++ [(mo, p)]) s).
Proof.
  intros [A1 A2 A3 A4 A5 A6 A7 A8 A9 A10] H.
  constructor; try (destruct tx; assumption).
  intros k q tx' K. assert (In (k, q) (table s tx') \/ tx' = tx /\ (k, q) = (mo, p)) as [Q|[-> Q]].
  { destruct tx, tx'; cbn in *; auto; apply in_app_or in K; destruct K as [K|[K|[]]]; auto. }
  - apply A6, Q.
  - injection Q as -> ->. exists o. exact H.
Qed.
(** a change in the list of modules that leaves alone what the roles use *)
Lemma Inv_tab R f g s t : Inv R f s -> (length (c_tab s) <= length t)%nat -> 
  (forall mo p tx o, In (mo, (p, tx, o)) R -> (o < objs (nth p t cmod0) tx)%nat /\ obj_mo (nth p t cmod0) tx o = mo /\ g p tx o = f p tx o) ->
  (forall p, (p < length t)%nat -> (cm_nrx (nth p t cmod0) <= 4)%nat /\ (cm_ntx (nth p t cmod0) <= 4)%nat /\ length (cm_rx (nth p t cmod0)) = 4%nat /\ length (cm_tx (nth p t cmod0)) = 4%nat) ->
  Inv R g (set_tab t s).
Proof.
  intros [A1 A2 A3 A4 A5 A6 A7 A8 A9 A10] L H4 H. constructor; auto.
  intros mo p tx o Hr. destruct (A4 mo p tx o Hr) as (B1 & B2 & B3 & B4 & B5 & B6 & B7 & B8). destruct (H4 _ _ _ _ Hr) as (C1 & C2 & C3). unfold cat. cbn [c_tab set_tab]. rewrite C3. repeat split; auto. lia.
Qed.
(** a registered object gets another identifier *)
Lemma Inv_re (HE : menv_ok E) R f s s' mo p tx o id : Inv R f s -> In (mo, (p, tx, o)) R ->
  mon_define E mo id MASK_ONE (tx_sv tx) true s = Some (ERR_OK, s') -> Inv R (fun p' tx' o' => if (p' =? p)%nat && Bool.eqb tx' tx && (o' =? o)%nat then id else f p' tx' o') s'.
Proof.
  intros [A1 A2 A3 A4 A5 A6 A7 A8 A9 A10] Hr H. apply (define_effect HE) in H. destruct H as (Lm & T & Tb & U & _ & H). destruct (H eq_refl) as [F M]. clear H.
  destruct (cused_set s s' mo U) as (U1 & U2 & U3). specialize (U2 ltac:(lia)).
  assert (forall q, cat s' q = cat s q) as C by (intro q; unfold cat; rewrite T; reflexivity).
  assert (forall k, k <> mo -> cfilt s' k = cfilt s k) as F2 by (intros k Nk; unfold cfilt; rewrite F; apply nth_set_nth_other; congruence).
  assert (cfilt s' mo = Some (id, MASK_ONE)) as F3 by (unfold cfilt; rewrite F; apply nth_set_nth_same; lia).
  pose proof (A4 _ _ _ _ Hr) as (R1 & R2 & R3 & R4 & R5 & R6 & R7 & R8).
  constructor; auto.
  - rewrite U, set_nth_length. exact A1.
  - rewrite F, set_nth_length. exact A2.
  - intros k q tx' o' H. destruct (A4 k q tx' o' H) as (B1 & B2 & B3 & B4 & B5 & B6 & B7 & B8). rewrite C, T, M, B8.
    destruct (Nat.eq_dec k mo) as [->|Nk].
    + pose proof (role_one R mo _ _ A3 Hr H) as Q. injection Q as <- <- <-. rewrite !Nat.eqb_refl, eqb_reflx. cbn [andb orb]. repeat split; auto.
    + rewrite (F2 k Nk), B7. replace ((q =? p)%nat && Bool.eqb tx' tx && (o' =? o)%nat) with false; [repeat split; auto|].
      symmetry. apply not_true_is_false. intro Q. apply andb_prop in Q. destruct Q as [Q Q3]. apply andb_prop in Q. destruct Q as [Q1 Q2]. apply Nat.eqb_eq in Q1, Q3. apply eqb_prop in Q2. subst q tx' o'. congruence.
  - intros k tx' H. rewrite M in H. apply orb_prop in H. destruct H as [H|H]; [apply A5, H|].
    apply andb_prop in H. destruct H as [H Hk]. apply Nat.eqb_eq in Hk. subst k. assert (tx' = tx) as -> by (destruct tx, tx'; cbn in H; congruence). exists p, o. exact Hr.
  - intros k q tx' H. rewrite Tb in H. apply A6 in H. exact H.
  - intros k x H. destruct (Nat.eq_dec k mo) as [->|Nk]; [right; right; exists (p, tx, o); exact Hr|]. rewrite (F2 k Nk) in H. apply A7 in H. exact H.
  - destruct A8. split; apply U1; assumption.
  - intros q H. rewrite C. rewrite T in H. apply A9, H.
  - rewrite !F2 by congruence. exact A10.
Qed.
(** ** adding objects *)
Definition base (tx : bool) : N := if tx then BASE_TX else BASE_RX.
Definition reg (s : mcfg) (p : nat) (tx : bool) (o : nat) (id : N) : Prop :=
  In (obj_mo (cat s p) tx o, p) (table s tx) /\ cfilt s (obj_mo (cat s p) tx o) = Some (id, 2047).
Record grow (p : nat) (s s' : mcfg) : Prop := {
  g_len : length (c_tab s') = length (c_tab s);
  g_cat : forall q, q <> p -> cat s' q = cat s q;
  g_nr : cm_nr (cat s' p) = cm_nr (cat s p) /\ forall tx, objs (cat s' p) tx = objs (cat s p) tx;
  g_table : forall tx x, In x (table s tx) -> In x (table s' tx);
  g_used : forall mo, cused s mo = true -> cused s' mo = true /\ cfilt s' mo = cfilt s mo
}.
Lemma grow_refl p s : grow p s s.
Proof. constructor; auto. Qed.
Lemma grow_trans p a b c : grow p a b -> grow p b c -> grow p a c.
Proof.
  intros [A1 A2 [A3 A3'] A4 A5] [B1 B2 [B3 B3'] B4 B5]. constructor; auto.
  - congruence.
  - intros q Nq. rewrite B2, A2 by exact Nq. reflexivity.
  - split; [congruence|]. intro tx. rewrite B3', A3'. reflexivity.
  - intros mo U. destruct (A5 mo U) as [U1 F1]. destruct (B5 mo U1) as [U2 F2]. split; [exact U2|congruence].
Qed.
Lemma reg_grow R f p s s' q tx o id : Inv R f s -> grow p s s' -> obj_mo (cat s' q) tx o = obj_mo (cat s q) tx o -> reg s q tx o id -> reg s' q tx o id.
Proof.
  intros I G Q [H1 H2]. unfold reg. rewrite Q. split; [apply (g_table _ _ _ G), H1|]. apply (i_tab _ _ _ I) in H1. destruct H1 as (o' & H1). apply (i_role _ _ _ I) in H1. destruct H1 as (U & _).
  rewrite (proj2 (g_used _ _ _ G _ U)). exact H2.
Qed.
Lemma set_up_grow R f p s s' q : Inv R f s -> grow p s s' -> q <> p -> set_up s q -> set_up s' q.
Proof.
  intros I G Nq [L H]. split; [rewrite (g_len _ _ _ G); exact L|]. rewrite (g_cat _ _ _ G q Nq). intros tx o Ho. specialize (H tx o Ho).
  pose proof (reg_grow R f p s s' q tx o (obj_id tx (cm_nr (cat s q)) o) I G) as X. unfold reg in X. rewrite (g_cat _ _ _ G q Nq) in X. exact (X eq_refl H).
Qed.
Lemma Inv_main R f s x : Inv R f s -> Inv R f (set_main x s).
Proof. intros [A1 A2 A3 A4 A5 A6 A7 A8 A9 A10]. constructor; auto. Qed.
Lemma grow_main p s x : grow p s (set_main x s).
Proof. constructor; auto. Qed.

Definition core (p : nat) (nr : N) (i : nat) (tx : bool) : act := fun s =>
  match first_free (c_used s) 0 with
  | None => Some (E_NO_MSG_OBJ, s)
  | Some mo =>
      seqa (modi (fun s => set_tab (upd_at (c_tab s) p (fun m => if tx then with_tx (set_nth (cm_tx m) i mo) m else with_rx (set_nth (cm_rx m) i mo) m)) s))
     (seqa (mon_define E mo (can_ident (base tx) nr i) MASK_ONE (tx_sv tx) true) (if tx then mon_tx_cnfg mo p else mon_rx_cnfg E mo p)) s
  end.
Lemma seqa_inv a b s r : seqa a b s = Some r -> exists e s1, a s = Some (e, s1) /\ (e = ERR_OK /\ b s1 = Some r \/ e <> ERR_OK /\ r = (e, s1)).
Proof.
  unfold seqa. destruct (a s) as [[e s1]|]; [|discriminate]. intro H. exists e, s1. split; [reflexivity|]. destruct (N.eqb_spec e ERR_OK) as [Q|Q]; [left; auto|right]. split; [exact Q|congruence].
Qed.
Lemma upd_at_len t p f : length (upd_at t p f) = length t.
Proof. revert p. induction t as [|m t IH]; intros [|p]; cbn; auto. Qed.
Lemma upd_at_nth t p f q : nth q (upd_at t p f) cmod0 = if (q =? p)%nat && (p <? length t)%nat then f (nth q t cmod0) else nth q t cmod0.
Proof.
  revert p q. induction t as [|m t IH]; intros p q.
  - cbn [upd_at length]. replace (p <? 0)%nat with false by (symmetry; apply Nat.ltb_ge; lia). rewrite andb_false_r. reflexivity.
  - destruct p as [|p], q as [|q]; cbn [upd_at nth length]; auto. rewrite IH. change (S q =? S p)%nat with (q =? p)%nat. change (S p <? S (length t))%nat with (p <? length t)%nat. reflexivity.
Qed.
Lemma cnfg_inv mo p (tx : bool) s e s' : (if tx then mon_tx_cnfg mo p else mon_rx_cnfg E mo p) s = Some (e, s') -> e = ERR_OK /\ s' = set_table tx (table s tx ++ [(mo, p)]) s \/ e <> ERR_OK /\ s' = s.
Proof.
  destruct tx; unfold mon_tx_cnfg, mon_rx_cnfg; destruct (_ <? _)%nat; intro H; injection H as <- <-; [left|right|left|right]; split; auto; discriminate.
Qed.
Lemma slot (HE : menv_ok E) R f p nr i tx s e s' : Inv R f s -> (p < length (c_tab s))%nat -> (i < objs (cat s p) tx)%nat -> (forall mo, ~ In (mo, (p, tx, i)) R) -> f p tx i = can_ident (base tx) nr i ->
  core p nr i tx s = Some (e, s') ->
  exists R', Inv R' f s' /\ incl R R' /\ (forall x, In x R' -> In x R \/ snd x = (p, tx, i)) /\ grow p s s' /\
    (forall tx' o', ~ (tx' = tx /\ o' = i) -> obj_mo (cat s' p) tx' o' = obj_mo (cat s p) tx' o') /\ (e = ERR_OK -> reg s' p tx i (f p tx i)).
Proof.
  intros I Lp Li Nr Hf H. unfold core in H. destruct (first_free (c_used s) 0) as [mo|] eqn:Fr.
  2: { injection H as <- <-. exists R. split; [exact I|]. split; [apply incl_refl|]. split; [auto|]. split; [apply grow_refl|]. split; [auto|discriminate]. }
  apply first_free_spec in Fr. rewrite Nat.sub_0_r in Fr. destruct Fr as (_ & Um & Lm).
  set (g := fun m => if tx then with_tx (set_nth (cm_tx m) i mo) m else with_rx (set_nth (cm_rx m) i mo) m) in *.
  apply seqa_inv in H. destruct H as (e1 & s1 & H1 & H). unfold modi in H1. injection H1 as <- <-. destruct H as [[_ H]|[X _]]; [|congruence].
  set (s1 := set_tab (upd_at (c_tab s) p g) s) in *.
  assert (forall q, cat s1 q = if (q =? p)%nat then g (cat s q) else cat s q) as C1.
  { intro q. unfold cat, s1. cbn [c_tab set_tab]. rewrite upd_at_nth. apply Nat.ltb_lt in Lp. rewrite Lp, andb_true_r. reflexivity. }
  destruct (i_four _ _ _ I p Lp) as (F1 & F2 & F3 & F4).
  assert (i < 4)%nat as Li4 by (unfold objs in Li; destruct tx; lia).
  assert (forall tx' o', ~ (tx' = tx /\ o' = i) -> obj_mo (g (cat s p)) tx' o' = obj_mo (cat s p) tx' o') as Og.
  { intros tx' o' N. unfold obj_mo, g. destruct tx, tx'; cbn [cm_rx cm_tx with_rx with_tx]; auto; apply nth_set_nth_other; intros <-; apply N; auto. }
  assert (obj_mo (g (cat s p)) tx i = mo) as Og2.
  { unfold obj_mo, g. destruct tx; cbn [cm_rx cm_tx with_rx with_tx]; apply nth_set_nth_same; lia. }
  assert (forall tx', objs (g (cat s p)) tx' = objs (cat s p) tx') as Ob by (intro tx'; unfold objs, g; destruct tx, tx'; reflexivity).
  assert (Inv R f s1) as I1.
  { apply (Inv_tab R f f s); [exact I|rewrite upd_at_len; lia| |].
    - intros k q tx' o' Hr. pose proof (i_role _ _ _ I _ _ _ _ Hr) as (B1 & B2 & B3 & B4 & B5 & B6 & B7 & B8). change (nth q (upd_at (c_tab s) p g) cmod0) with (cat s1 q). rewrite C1. destruct (Nat.eqb_spec q p) as [->|Nq]; [|auto].
      rewrite Ob, Og; auto. intros [-> ->]. exact (Nr k Hr).
    - rewrite upd_at_len. intros q Lq. change (nth q (upd_at (c_tab s) p g) cmod0) with (cat s1 q). rewrite C1. destruct (Nat.eqb_spec q p) as [->|Nq]; [|apply (i_four _ _ _ I), Lq].
      unfold g. destruct tx; cbn; rewrite set_nth_length; auto. }
  assert (grow p s s1) as G1.
  { constructor; auto.
    - unfold s1. cbn [c_tab set_tab]. apply upd_at_len.
    - intros q Nq. rewrite C1. apply Nat.eqb_neq in Nq. rewrite Nq. reflexivity.
    - rewrite C1, Nat.eqb_refl. split; [unfold g; destruct tx; reflexivity|exact Ob]. }
  assert (forall tx' o', ~ (tx' = tx /\ o' = i) -> obj_mo (cat s1 p) tx' o' = obj_mo (cat s p) tx' o') as O1 by (intros tx' o' N; rewrite C1, Nat.eqb_refl; apply Og, N).
  assert (p < length (c_tab s1))%nat as Lp1 by (rewrite (g_len _ _ _ G1); exact Lp).
  assert (i < objs (cat s1 p) tx)%nat as Li1 by (rewrite (proj2 (g_nr _ _ _ G1)); exact Li).
  assert (obj_mo (cat s1 p) tx i = mo) as Om1 by (rewrite C1, Nat.eqb_refl; exact Og2).
  assert (cused s1 mo = false) as Um1 by exact Um.
  clearbody s1. clear C1. apply seqa_inv in H. destruct H as (e2 & s2 & H2 & H).
  assert (forall s2', mon_define E mo (can_ident (base tx) nr i) MASK_ONE (tx_sv tx) true s1 = Some (e2, s2') -> grow p s1 s2' /\ (forall q, cat s2' q = cat s1 q)) as Gd.
  { intros s2' H2'. apply (define_effect HE) in H2'. destruct H2' as (_ & T & Tb & U & Hn & Hy). assert (forall q, cat s2' q = cat s1 q) as C by (intro q; unfold cat; rewrite T; reflexivity). split; [|exact C].
    destruct (cused_set _ _ _ U) as (V1 & V2 & V3). constructor; auto.
    - rewrite T. reflexivity.
    - rewrite C. auto.
    - intros tx' x Hx. rewrite Tb. exact Hx.
    - intros k Uk. split; [apply V1, Uk|]. unfold cfilt. destruct (N.eq_dec e2 ERR_OK) as [->|Ne]; [|rewrite (proj1 (Hn Ne)); reflexivity]. rewrite (proj1 (Hy eq_refl)). apply nth_set_nth_other. intros <-. congruence. }
  destruct (Gd s2 H2) as [G2 C2]. pose proof (grow_trans _ _ _ _ G1 G2) as G.
  destruct H as [[-> H]|[Ne H]].
  - rewrite <- Hf in H2. pose proof (Inv_new HE R f s1 s2 mo p tx i I1 Um1 Lp1 Li1 Om1 H2) as I2.
    apply cnfg_inv in H.
    assert (incl R ((mo, (p, tx, i)) :: R) /\ (forall x, In x ((mo, (p, tx, i)) :: R) -> In x R \/ snd x = (p, tx, i))) as [Q1 Q2].
    { split; [intros x Hx; right; exact Hx|]. intros x [<-|Hx]; auto. }
    destruct H as [[-> ->]|[Ne ->]].
    + exists ((mo, (p, tx, i)) :: R). split; [apply (Inv_reg ((mo, (p, tx, i)) :: R) f s2 mo p tx i); [exact I2|left; reflexivity]|].
      split; [exact Q1|]. split; [exact Q2|].
      assert (forall q, cat (set_table tx (table s2 tx ++ [(mo, p)]) s2) q = cat s2 q) as C3 by (intro q; destruct tx; reflexivity).
      split. { eapply grow_trans; [exact G|]. constructor; auto.
        - destruct tx; reflexivity.
        - rewrite C3. auto.
        - intros tx' x Hx. destruct tx, tx'; cbn in *; auto; apply in_or_app; left; exact Hx.
        - intros k Uk. split; [destruct tx; exact Uk|destruct tx; reflexivity]. }
      split; [intros tx' o' N; rewrite C3, C2; apply O1, N|]. intros _. unfold reg. rewrite C3, C2, Om1. split; [destruct tx; cbn; apply in_or_app; right; left; reflexivity|].
      pose proof (i_role _ _ _ I2 mo p tx i (or_introl eq_refl)) as (_ & _ & _ & _ & _ & _ & F & _). destruct tx; exact F.
    + exists ((mo, (p, tx, i)) :: R). split; [exact I2|]. split; [exact Q1|]. split; [exact Q2|]. split; [exact G|]. split; [intros tx' o' N; rewrite C2; apply O1, N|]. intros ->. congruence.
  - injection H as -> ->. exists R. pose proof (define_effect HE _ _ _ _ _ _ _ _ H2) as (_ & T & Tb & U & Hn & _). destruct (Hn Ne) as [F M].
    split; [apply (Inv_mark R f s1 s2 mo); auto|]. split; [apply incl_refl|]. split; [auto|]. split; [exact G|]. split; [intros tx' o' N; rewrite C2; apply O1, N|]. intros ->. congruence.
Qed.
Definition slotf (tx : bool) (p : nat) (nr : N) (i : nat) : act := if tx then tx_slot_mon E p nr i else rx_slot_mon E p nr i.
Definition same_but (p : nat) (P : bool -> nat -> Prop) (s s' : mcfg) : Prop := forall tx o, ~ P tx o -> obj_mo (cat s' p) tx o = obj_mo (cat s p) tx o.
Lemma main_inv s e s' : main_part s = Some (e, s') -> s' = s \/ exists r, s' = set_main r s.
Proof. unfold main_part. destruct (c_main s) as [|x r]; intro H; injection H as <- <-; [left; reflexivity|right; exists r; reflexivity]. Qed.
Lemma main_keeps R f p s e s' : Inv R f s -> main_part s = Some (e, s') -> Inv R f s' /\ grow p s s' /\ (forall q, cat s' q = cat s q).
Proof. intros I H. apply main_inv in H. destruct H as [->|[r ->]]; (split; [auto using Inv_main|split; [auto using grow_refl, grow_main|reflexivity]]). Qed.
Lemma slot_any (HE : menv_ok E) R f p nr i tx s e s' : Inv R f s -> (p < length (c_tab s))%nat -> (i < objs (cat s p) tx)%nat -> (forall mo, ~ In (mo, (p, tx, i)) R) -> f p tx i = can_ident (base tx) nr i ->
  slotf tx p nr i s = Some (e, s') ->
  exists R', Inv R' f s' /\ (forall x, In x R' -> In x R \/ snd x = (p, tx, i)) /\ grow p s s' /\
    same_but p (fun tx' o' => tx' = tx /\ o' = i) s s' /\ (e = ERR_OK -> reg s' p tx i (f p tx i)).
Proof.
  intros I Lp Li Nr Hf H. destruct tx.
  - change (core p nr i true s = Some (e, s')) in H. destruct (slot HE R f p nr i true s e s' I Lp Li Nr Hf H) as (R' & X1 & _ & X). exists R'. split; [exact X1|exact X].
  - change (seqa main_part (core p nr i false) s = Some (e, s')) in H. apply seqa_inv in H. destruct H as (e1 & s1 & H1 & H).
    destruct (main_keeps R f p s e1 s1 I H1) as (I1 & G1 & C1). destruct H as [[-> H]|[Ne H]].
    + assert (p < length (c_tab s1))%nat as Lp1 by (rewrite (g_len _ _ _ G1); exact Lp). rewrite <- C1 in Li.
      destruct (slot HE R f p nr i false s1 e s' I1 Lp1 Li Nr Hf H) as (R' & X1 & _ & X2 & X3 & X4 & X5). exists R'. split; [exact X1|]. split; [exact X2|]. split; [eapply grow_trans; eauto|]. split; [|exact X5].
      intros tx' o' N. rewrite (X4 tx' o' N), C1. reflexivity.
    + injection H as -> ->. exists R. split; [exact I1|]. split; [auto|]. split; [exact G1|]. split; [intros tx' o' _; rewrite C1; reflexivity|]. intros ->. congruence.
Qed.
Lemma slots (HE : menv_ok E) f p nr tx n : forall i R s e s', Inv R f s -> (p < length (c_tab s))%nat -> (i + n <= objs (cat s p) tx)%nat -> (forall mo j, (i <= j)%nat -> ~ In (mo, (p, tx, j)) R) ->
  (forall j, (j < objs (cat s p) tx)%nat -> f p tx j = can_ident (base tx) nr j) -> loop n i (slotf tx p nr) s = Some (e, s') ->
  exists R', Inv R' f s' /\ (forall x, In x R' -> In x R \/ exists j, (i <= j)%nat /\ snd x = (p, tx, j)) /\ grow p s s' /\
    same_but p (fun tx' o' => tx' = tx /\ (i <= o')%nat) s s' /\ (e = ERR_OK -> forall j, (i <= j < i + n)%nat -> reg s' p tx j (f p tx j)).
Proof.
  induction n as [|n IH]; intros i R s e s' I Lp Li Nr Hf H; cbn [loop] in H.
  - injection H as <- <-. exists R. split; [exact I|]. split; [auto|]. split; [apply grow_refl|]. split; [intros ? ? _; reflexivity|]. intros _ j Hj. lia.
  - apply seqa_inv in H. destruct H as (e1 & s1 & H1 & H).
    assert (forall mo, ~ In (mo, (p, tx, i)) R) as Nr0 by (intro mo; apply Nr; lia).
    destruct (slot_any HE R f p nr i tx s e1 s1 I Lp ltac:(lia) Nr0 (Hf i ltac:(lia)) H1) as (R1 & I1 & S1 & G1 & O1 & K1).
    destruct H as [[-> H]|[Ne H]].
    + assert (p < length (c_tab s1))%nat as Lp1 by (rewrite (g_len _ _ _ G1); exact Lp).
      assert (objs (cat s1 p) tx = objs (cat s p) tx) as Ob by apply (g_nr _ _ _ G1).
      destruct (IH (S i) R1 s1 e s' I1 Lp1) as (R' & X1 & X2 & X3 & X4 & X5); auto.
      { rewrite Ob. lia. }
      { intros mo j Hj Hr. apply S1 in Hr. destruct Hr as [Hr|Hr]; [apply (Nr mo j); [lia|exact Hr]|]. cbn in Hr. injection Hr as Hr. lia. }
      { rewrite Ob. exact Hf. }
      exists R'. split; [exact X1|]. split.
      { intros x Hx. apply X2 in Hx. destruct Hx as [Hx|(j & Hj & Hx)]; [apply S1 in Hx; destruct Hx as [Hx|Hx]; [left; exact Hx|right; exists i; auto]|right; exists j; split; [lia|exact Hx]]. }
      split; [eapply grow_trans; eauto|]. split.
      { intros tx' o' N. rewrite (X4 tx' o'), (O1 tx' o'); [reflexivity| |]; intros [-> Q]; apply N; split; auto; lia. }
      intros He j Hj. destruct (Nat.eq_dec j i) as [->|Nj]; [|apply X5; [exact He|lia]]. apply (reg_grow R1 f p s1 s'); auto. apply X4. intros [_ Q]. lia.
    + injection H as -> ->. exists R1. split; [exact I1|]. split; [intros x Hx; apply S1 in Hx; destruct Hx as [Hx|Hx]; [left; exact Hx|right; exists i; auto]|].
      split; [exact G1|]. split; [intros tx' o' N; apply O1; intros [-> ->]; apply N; auto|]. intros ->. congruence.
Qed.
Lemma Inv_ext R f g s : Inv R f s -> (forall mo p tx o, In (mo, (p, tx, o)) R -> (o < objs (cat s p) tx)%nat -> g p tx o = f p tx o) -> Inv R g s.
Proof.
  intros [A1 A2 A3 A4 A5 A6 A7 A8 A9 A10] H. constructor; auto. intros mo p tx o Hr. destruct (A4 mo p tx o Hr) as (B1 & B2 & B3 & B4 & B5 & B6 & B7 & B8). rewrite (H mo p tx o Hr B5). repeat split; auto.
Qed.
Definition idf (s : mcfg) : idfun := fun p tx o => obj_id tx (cm_nr (cat s p)) o.
Lemma ident_obj tx nr o : 1 <= nr -> nr < 8000 -> (o < 4)%nat -> can_ident (base tx) nr o = obj_id tx nr o.
Proof. intros H1 H2 H3. destruct tx; [apply can_ident_data|apply data_rx_eq]; auto. Qed.
Lemma limit_range p nr : (p < 8)%nat -> 1 <= limit_nr p nr /\ limit_nr p nr < 8000.
Proof. intro H. unfold limit_nr, NR_MIN, NR_MAX, NR_DEF. destruct (_ || _) eqn:Q; lia. Qed.
Lemma add_keeps (HE : menv_ok E) R s nr nrx ntx rx0 tx0 e s' : Inv R (idf s) s -> (nrx <= 4)%nat -> (ntx <= 4)%nat -> length rx0 = 4%nat -> length tx0 = 4%nat ->
  add_mon E nr nrx ntx rx0 tx0 s = Some (e, s') ->
  (exists R', Inv R' (idf s') s') /\ (forall q, (q < length (c_tab s))%nat -> cat s' q = cat s q /\ (set_up s q -> set_up s' q)) /\
  (e = ERR_OK -> length (c_tab s') = S (length (c_tab s)) /\ set_up s' (length (c_tab s)) /\ objs (cat s' (length (c_tab s))) false = nrx /\ objs (cat s' (length (c_tab s))) true = ntx /\
    cm_nr (cat s' (length (c_tab s))) = limit_nr (length (c_tab s)) (if existsb (fun m => cm_nr m =? nr) (c_tab s) then NR_DEF + N.of_nat (length (c_tab s)) else nr)).
Proof.
  intros I H1 H2 H3 H4 H. unfold add_mon in H. set (pos := length (c_tab s)) in *. destruct (Nat.ltb_spec pos (MM E)) as [Lp|Lp].
  2: { injection H as <- <-. split; [exists R; exact I|]. split; [auto|discriminate]. }
  assert (pos < 8)%nat as L8 by (destruct HE as ((? & ?) & _); lia).
  set (nr0 := if existsb _ _ then _ else nr) in *. clearbody nr0. unfold set_module_mon in H. destruct (limit_range pos nr0 L8) as [N1 N2]. set (k := limit_nr pos nr0) in *. clearbody k. clear nr0.
  apply seqa_inv in H. destruct H as (e1 & s1 & Q & H). unfold modi in Q. injection Q as <- <-. destruct H as [[_ H]|[X _]]; [|congruence].
  set (s1 := set_tab (c_tab s ++ [CMod k nrx ntx rx0 tx0]) s) in *.
  assert (length (c_tab s1) = S pos) as L1 by (unfold s1; cbn; rewrite app_length; cbn; lia).
  assert (cat s1 pos = CMod k nrx ntx rx0 tx0) as C1 by (unfold cat, s1; cbn; rewrite app_nth2, Nat.sub_diag by (unfold pos; lia); reflexivity).
  assert (forall q, (q < pos)%nat -> cat s1 q = cat s q) as C0 by (intros q Lq; unfold cat, s1; cbn; apply app_nth1; exact Lq).
  assert (Inv R (idf s1) s1) as I1.
  { apply (Inv_tab R (idf s) (idf s1) s); [exact I|rewrite app_length; lia| |].
    - intros mo p tx o Hr. pose proof (i_role _ _ _ I _ _ _ _ Hr) as (B1 & B2 & B3 & B4 & B5 & B6 & B7 & B8). change (nth p _ cmod0) with (cat s1 p). unfold idf. rewrite C0 by exact B4. auto.
    - rewrite app_length. cbn [length]. intros p Lq. change (nth p _ cmod0) with (cat s1 p). destruct (Nat.eq_dec p pos) as [->|Np]; [rewrite C1; cbn; auto|]. rewrite C0 by (unfold pos in *; lia). apply (i_four _ _ _ I). unfold pos in *; lia. }
  assert (forall tx j, (j < objs (cat s1 pos) tx)%nat -> idf s1 pos tx j = can_ident (base tx) k j) as Hf.
  { intros tx j Hj. unfold idf. rewrite ident_obj; [rewrite C1; reflexivity|assumption|assumption|]. rewrite C1 in Hj. destruct tx; cbn in Hj; lia. }
  assert (forall mo tx j, ~ In (mo, (pos, tx, j)) R) as Nr.
  { intros mo tx j Hr. apply (i_role _ _ _ I) in Hr. destruct Hr as (_ & _ & _ & B4 & _). unfold pos in B4. lia. }
  assert (forall q, (q < pos)%nat -> set_up s q -> set_up s1 q) as Up1.
  { intros q Lq [_ U]. split; [rewrite L1; lia|]. rewrite C0 by exact Lq. exact U. }
  assert (forall R' s2, Inv R' (idf s1) s2 -> grow pos s1 s2 -> (exists R', Inv R' (idf s2) s2) /\ (forall q, (q < pos)%nat -> cat s2 q = cat s q /\ (set_up s q -> set_up s2 q))) as End.
  { intros R' s2 I2 G. split.
    - exists R'. apply (Inv_ext R' (idf s1)); [exact I2|]. intros mo p tx o _ _. unfold idf. destruct (Nat.eq_dec p pos) as [->|Np]; [rewrite (proj1 (g_nr _ _ _ G))|rewrite (g_cat _ _ _ G p Np)]; reflexivity.
    - intros q Lq. rewrite (g_cat _ _ _ G) by lia. split; [apply C0, Lq|]. intro U. apply (set_up_grow R (idf s1) pos s1); auto; lia. }
  apply seqa_inv in H. destruct H as (e1 & s2 & H5 & H).
  change (loop ntx 0 (slotf true pos k) s1 = Some (e1, s2)) in H5.
  destruct (slots HE (idf s1) pos k true ntx 0 R s1 e1 s2) as (R2 & I2 & S2 & G2 & O2 & K2); auto.
  { rewrite L1. lia. } { rewrite C1. cbn. lia. }
  destruct H as [[-> H]|[Ne H]].
  2: { injection H as -> ->. destruct (End R2 s2 I2 G2) as [E1 E2]. split; [exact E1|]. split; [exact E2|]. intros ->. congruence. }
  apply seqa_inv in H. destruct H as (e1 & s3 & H6 & H).
  change (loop nrx 0 (slotf false pos k) s2 = Some (e1, s3)) in H6.
  assert (forall tx, objs (cat s2 pos) tx = objs (cat s1 pos) tx) as Ob by apply (g_nr _ _ _ G2).
  destruct (slots HE (idf s1) pos k false nrx 0 R2 s2 e1 s3) as (R3 & I3 & S3 & G3 & O3 & K3); auto.
  { rewrite (g_len _ _ _ G2), L1. lia. } { rewrite Ob, C1. cbn. lia. }
  { intros mo j _ Hr. apply S2 in Hr. destruct Hr as [Hr|(j' & _ & Hr)]; [exact (Nr _ _ _ Hr)|discriminate Hr]. }
  { intros j Hj. apply Hf. rewrite <- Ob. exact Hj. }
  pose proof (grow_trans _ _ _ _ G2 G3) as G13.
  destruct H as [[-> H]|[Ne H]].
  2: { injection H as -> ->. destruct (End R3 s3 I3 G13) as [E1 E2]. split; [exact E1|]. split; [exact E2|]. intros ->. congruence. }
  destruct (main_keeps R3 (idf s1) pos s3 e s' I3 H) as (I4 & G4 & C4). pose proof (grow_trans _ _ _ _ G13 G4) as G14.
  destruct (End R3 s' I4 G14) as [E1 E2]. split; [exact E1|]. split; [exact E2|]. intros ->.
  assert (forall tx, objs (cat s' pos) tx = objs (cat s1 pos) tx) as Ob4 by apply (g_nr _ _ _ G14).
  assert (length (c_tab s') = S pos) as L4 by (rewrite (g_len _ _ _ G14); exact L1).
  split; [exact L4|]. rewrite !Ob4, C1. split; [|split; [reflexivity|split; [reflexivity|rewrite (proj1 (g_nr _ _ _ G14)), C1; reflexivity]]]. split; [rewrite L4; lia|].
  intros tx o. rewrite Ob4. intro Ho. change (reg s' pos tx o (obj_id tx (cm_nr (cat s' pos)) o)). rewrite (proj1 (g_nr _ _ _ G14)). change (reg s' pos tx o (idf s1 pos tx o)).
  apply (reg_grow R3 (idf s1) pos s3); auto; [rewrite C4; reflexivity|].
  rewrite C1 in Ho. destruct tx.
  - apply (reg_grow R2 (idf s1) pos s2); auto; [apply O3; intros [X _]; discriminate|]. apply K2; [reflexivity|]. cbn in Ho. lia.
  - apply K3; [reflexivity|]. cbn in Ho. lia.
Qed.
(** ** the initialisation *)
Lemma init_Inv (HE : menv_ok E) orc main s : mon_init E (start orc main) = Some (ERR_OK, s) -> Inv [] (idf s) s.
Proof.
  intro H. unfold mon_init in H. apply seqa_inv in H. destruct H as (e & s1 & Q & H). unfold modi in Q. injection Q as <- <-. destruct H as [[_ H]|[X _]]; [|congruence].
  apply seqa_inv in H. destruct H as (e & s2 & H1 & H). destruct H as [[-> H]|[Ne H]]; [|congruence].
  apply (define_effect HE) in H1. destruct H1 as (_ & T1 & B1 & U1 & _ & F1). destruct (F1 eq_refl) as [F1' M1]. clear F1.
  apply (define_effect HE) in H. destruct H as (_ & T2 & B2 & U2 & _ & F2). destruct (F2 eq_refl) as [F2' M2]. clear F2.
  cbn [c_tab set_filt set_used start c_used c_filt] in *. rewrite U1 in U2. rewrite F1' in F2'. destruct HE as [_ [HE HE']].
  assert (forall p, ~ (p < length (c_tab s))%nat) as Nt by (intro p; rewrite T2, T1; cbn; lia).
  assert (forall tx k, in_mask s tx k = false) as M.
  { intros tx k. rewrite M2, M1. cbn. rewrite !orb_false_r. unfold in_mask. destruct tx; reflexivity. }
  constructor.
  - rewrite U2, !set_nth_length, repeat_length. reflexivity.
  - rewrite F2', !set_nth_length, repeat_length. reflexivity.
  - constructor.
  - intros mo p tx o [].
  - intros mo tx H. rewrite M in H. discriminate.
  - intros mo p tx H. rewrite B2, B1 in H. destruct tx; destruct H.
  - intros mo x. unfold cfilt. rewrite F2'. destruct (Nat.eq_dec mo MON_SYS1) as [->|N4].
    { rewrite nth_set_nth_same by (rewrite set_nth_length, repeat_length; unfold MON_SYS1; lia). intro Q. injection Q as <-. auto. }
    rewrite nth_set_nth_other by congruence. destruct (Nat.eq_dec mo MON_PROCESS) as [->|N1].
    { rewrite nth_set_nth_same by (rewrite repeat_length; unfold MON_PROCESS; lia). intro Q. injection Q as <-. auto. }
    rewrite nth_set_nth_other by congruence. rewrite nth_repeat. discriminate.
  - unfold cused. rewrite U2. split.
    + apply set_nth_true_grow. apply nth_set_nth_same. rewrite repeat_length. unfold MON_PROCESS. lia.
    + apply nth_set_nth_same. rewrite set_nth_length, repeat_length. unfold MON_SYS1. lia.
  - intros p Hp. destruct (Nt p Hp).
  - unfold cfilt. rewrite F2'. split.
    + rewrite nth_set_nth_other by (unfold MON_PROCESS, MON_SYS1; lia). apply nth_set_nth_same. rewrite repeat_length. unfold MON_PROCESS. lia.
    + apply nth_set_nth_same. rewrite set_nth_length, repeat_length. unfold MON_SYS1. lia.
Qed.
(** ** number changes *)
Lemma obj_id_inj tx nr o o' : obj_id tx nr o = obj_id tx nr o' -> o = o'.
Proof. unfold obj_id, data_tx_id, data_rx_id. destruct tx; lia. Qed.
Lemma set_up_roles R s q : Inv R (idf s) s -> set_up s q -> forall tx o, (o < objs (cat s q) tx)%nat -> In (obj_mo (cat s q) tx o, (q, tx, o)) R.
Proof.
  intros I [L U] tx o Ho. destruct (U tx o Ho) as [U1 U2]. destruct (i_tab _ _ _ I _ _ _ U1) as (o' & Hr). pose proof (i_role _ _ _ I _ _ _ _ Hr) as (_ & _ & _ & _ & _ & _ & F & _).
  unfold cfilt in F. rewrite U2 in F. injection F as F. apply obj_id_inj in F. subst o'. exact Hr.
Qed.
Lemma roles_set_up R s q : Inv R (idf s) s -> (q < length (c_tab s))%nat -> (forall tx o, (o < objs (cat s q) tx)%nat -> In (obj_mo (cat s q) tx o, q) (table s tx) /\ In (obj_mo (cat s q) tx o, (q, tx, o)) R) -> set_up s q.
Proof.
  intros I L U. split; [exact L|]. intros tx o Ho. destruct (U tx o Ho) as [U1 Hr]. split; [exact U1|]. pose proof (i_role _ _ _ I _ _ _ _ Hr) as (_ & _ & _ & _ & _ & _ & F & _). exact F.
Qed.
Definition restf (tx : bool) (m : cmod) (new : N) (i : nat) : act :=
  if tx then mon_define E (nth i (cm_tx m) 0%nat) (can_ident BASE_TX new i) MASK_ONE IsrRxMain true
  else seqa main_part (mon_define E (nth i (cm_rx m) 0%nat) (can_ident BASE_RX new i) MASK_ONE IsrRx true).
Definition same_tabs (s s' : mcfg) : Prop := c_tab s' = c_tab s /\ forall tx, table s' tx = table s tx.
Lemma restf_inv (HE : menv_ok E) tx m new i s s' (R : list (nat * role)) f p : Inv R f s -> restf tx m new i s = Some (ERR_OK, s') -> In (obj_mo m tx i, (p, tx, i)) R ->
  Inv R (fun p' tx' o' => if (p' =? p)%nat && Bool.eqb tx' tx && (o' =? i)%nat then can_ident (base tx) new i else f p' tx' o') s' /\ same_tabs s s'.
Proof.
  intros I H Hr.
  assert (exists s1, Inv R f s1 /\ same_tabs s s1 /\ mon_define E (obj_mo m tx i) (can_ident (base tx) new i) MASK_ONE (tx_sv tx) true s1 = Some (ERR_OK, s')) as (s1 & I1 & [T1 B1] & H1).
  { destruct tx; [exists s; split; [exact I|split; [split; reflexivity|exact H]]|]. unfold restf in H. apply seqa_inv in H. destruct H as (e & s1 & H1 & H). destruct H as [[-> H]|[Ne H]]; [|congruence].
    exists s1. split; [apply (main_keeps R f 0%nat s ERR_OK); auto|]. split; [|exact H]. apply main_inv in H1. destruct H1 as [->|[r ->]]; split; reflexivity. }
  split; [apply (Inv_re HE R f s1 s' (obj_mo m tx i)); auto|]. apply (define_effect HE) in H1. destruct H1 as (_ & T & B & _). split; [congruence|]. intro tx'. rewrite B. apply B1.
Qed.
Lemma restfs (HE : menv_ok E) tx m new p (R : list (nat * role)) n : forall i f s s', Inv R f s -> loop n i (restf tx m new) s = Some (ERR_OK, s') -> (forall j, (i <= j < i + n)%nat -> In (obj_mo m tx j, (p, tx, j)) R) ->
  exists g, Inv R g s' /\ same_tabs s s' /\ forall p' tx' o', g p' tx' o' = if (p' =? p)%nat && Bool.eqb tx' tx && ((i <=? o') && (o' <? i + n))%nat then can_ident (base tx) new o' else f p' tx' o'.
Proof.
  induction n as [|n IH]; intros i f s s' I H Hr; cbn [loop] in H.
  - injection H as <-. exists f. split; [exact I|]. split; [split; reflexivity|]. intros p' tx' o'. replace ((i <=? o') && (o' <? i + 0))%nat with false by (symmetry; apply not_true_is_false; intro; lia). rewrite andb_false_r. reflexivity.
  - apply seqa_inv in H. destruct H as (e & s1 & H1 & H). destruct H as [[-> H]|[Ne H]]; [|congruence].
    destruct (restf_inv HE tx m new i s s1 R f p I H1) as [I1 [T1 B1]]; [apply Hr; lia|].
    destruct (IH (S i) _ s1 s' I1 H) as (g & I2 & [T2 B2] & G); [intros j Hj; apply Hr; lia|].
    exists g. split; [exact I2|]. split; [split; [congruence|intro tx'; rewrite B2; apply B1]|].
    intros p' tx' o'. rewrite G. destruct (p' =? p)%nat; [|reflexivity]. destruct (Bool.eqb tx' tx); [|reflexivity]. cbn [andb].
    destruct (Nat.eqb_spec o' i) as [->|No].
    + replace ((S i <=? i) && (i <? S i + n))%nat with false by (symmetry; apply not_true_is_false; intro; lia). replace ((i <=? i) && (i <? i + S n))%nat with true by (symmetry; apply andb_true_intro; split; [apply Nat.leb_le|apply Nat.ltb_lt]; lia). reflexivity.
    + replace ((S i <=? o') && (o' <? S i + n))%nat with ((i <=? o') && (o' <? i + S n))%nat; [reflexivity|]. apply eq_true_iff_eq. rewrite !andb_true_iff, !Nat.leb_le, !Nat.ltb_lt. lia.
Qed.
Lemma renumber_keeps (HE : menv_ok E) R s p new s' : Inv R (idf s) s -> set_up s p -> 1 <= new <= 128 -> renumber_mon E p new s = Some (ERR_OK, s') ->
  Inv R (idf s') s' /\ length (c_tab s') = length (c_tab s) /\ (forall q, q <> p -> cat s' q = cat s q) /\ cat s' p = with_nr new (cat s p) /\ (forall q, set_up s q -> set_up s' q).
Proof.
  intros I Up Hn H. pose proof (set_up_roles R s p I Up) as Rp. destruct Up as [Lp Up]. unfold renumber_mon in H. apply Nat.ltb_lt in Lp. rewrite Lp in H. apply Nat.ltb_lt in Lp.
  apply seqa_inv in H. destruct H as (e & s1 & Q & H). unfold modi in Q. injection Q as <- <-. destruct H as [[_ H]|[X _]]; [|congruence].
  set (s1 := set_tab (upd_at (c_tab s) p (with_nr new)) s) in *.
  assert (forall q, cat s1 q = if (q =? p)%nat then with_nr new (cat s q) else cat s q) as C1.
  { intro q. unfold cat, s1. cbn [c_tab set_tab]. rewrite upd_at_nth. apply Nat.ltb_lt in Lp. rewrite Lp, andb_true_r. reflexivity. }
  assert (forall q tx, objs (cat s1 q) tx = objs (cat s q) tx /\ forall o, obj_mo (cat s1 q) tx o = obj_mo (cat s q) tx o) as Same by (intros q tx; rewrite C1; destruct (q =? p)%nat; split; reflexivity).
  assert (Inv R (idf s) s1) as I1.
  { apply (Inv_tab R (idf s) (idf s) s); [exact I|rewrite upd_at_len; lia| |].
    - intros mo q tx o Hr. pose proof (i_role _ _ _ I _ _ _ _ Hr) as (B1 & B2 & B3 & B4 & B5 & B6 & B7 & B8). change (nth q _ cmod0) with (cat s1 q). destruct (Same q tx) as [S1 S2]. rewrite S1, S2. auto.
    - rewrite upd_at_len. intros q Lq. change (nth q _ cmod0) with (cat s1 q). pose proof (i_four _ _ _ I q Lq) as X. rewrite C1. destruct (q =? p)%nat; exact X. }
  assert (length (c_tab s1) = length (c_tab s)) as L1 by apply upd_at_len.
  assert (forall tx, table s1 tx = table s tx) as T1 by (intros []; reflexivity).
  clearbody s1.
  apply seqa_inv in H. destruct H as (e & s2 & H2 & H). destruct H as [[-> H]|[Ne H]]; [|congruence].
  change (loop (cm_ntx (cat s p)) 0 (restf true (cat s p) new) s1 = Some (ERR_OK, s2)) in H2.
  destruct (restfs HE true (cat s p) new p R _ 0 (idf s) s1 s2 I1 H2) as (g2 & I2 & [Tt2 B2] & G2); [intros j Hj; apply Rp; cbn; lia|].
  apply seqa_inv in H. destruct H as (e & s3 & H3 & H). destruct H as [[-> H]|[Ne H]]; [|congruence].
  change (loop (cm_nrx (cat s p)) 0 (restf false (cat s p) new) s2 = Some (ERR_OK, s3)) in H3.
  destruct (restfs HE false (cat s p) new p R _ 0 g2 s2 s3 I2 H3) as (g3 & I3 & [Tt3 B3] & G3); [intros j Hj; apply Rp; cbn; lia|].
  destruct (main_keeps R g3 p s3 ERR_OK s' I3 H) as (I4 & _ & C4).
  assert (c_tab s' = c_tab s1 /\ forall tx, table s' tx = table s1 tx) as [Tt4 B4].
  { apply main_inv in H. assert (c_tab s' = c_tab s3 /\ forall tx, table s' tx = table s3 tx) as [X1 X2] by (destruct H as [->|[r ->]]; split; reflexivity). split; [congruence|]. intro tx. rewrite X2, B3, B2. reflexivity. }
  assert (forall q, cat s' q = cat s1 q) as C by (intro q; unfold cat; rewrite Tt4; reflexivity).
  assert (Inv R (idf s') s') as I5.
  { apply (Inv_ext R g3); [exact I4|]. intros mo q tx o Hr Ho. rewrite C, (proj1 (Same q tx)) in Ho. unfold idf at 1. rewrite C, C1, G3, G2. destruct (Nat.eqb_spec q p) as [->|Nq]; [|reflexivity].
    destruct (i_four _ _ _ I p Lp) as (F1 & F2 & _). cbn [andb with_nr cm_nr].
    destruct tx; cbn [Bool.eqb andb].
    - cbn [objs] in Ho. replace ((0 <=? o) && (o <? 0 + cm_ntx (cat s p)))%nat with true by (symmetry; apply andb_true_intro; split; [apply Nat.leb_le|apply Nat.ltb_lt]; lia). symmetry. apply ident_obj; lia.
    - cbn [objs] in Ho. replace ((0 <=? o) && (o <? 0 + cm_nrx (cat s p)))%nat with true by (symmetry; apply andb_true_intro; split; [apply Nat.leb_le|apply Nat.ltb_lt]; lia). symmetry. apply ident_obj; lia. }
  split; [exact I5|]. split; [rewrite Tt4; exact L1|]. split; [intros q Nq; rewrite C, C1; apply Nat.eqb_neq in Nq; rewrite Nq; reflexivity|]. split; [rewrite C, C1, Nat.eqb_refl; reflexivity|].
  intros q Uq. pose proof (set_up_roles R s q I Uq) as Rq. destruct Uq as [Lq Uq]. apply (roles_set_up R s' q I5); [rewrite Tt4, L1; exact Lq|]. intros tx o. rewrite C. destruct (Same q tx) as [S1 S2]. rewrite S1, S2, B4, T1. intro Ho. split; [apply Uq, Ho|apply Rq, Ho].
Qed.
Lemma configured_Inv (HE : menv_ok E) s : configured E s -> exists R, Inv R (idf s) s.
Proof.
  induction 1 as [orc main s H|s nr nrx ntx rx0 tx0 e s' _ [R IH] H1 H2 H3 H4 H|s p new s' _ [R IH] Up Hn H].
  - exists []. apply (init_Inv HE orc main s H).
  - apply (add_keeps HE R s nr nrx ntx rx0 tx0 e s' IH H1 H2 H3 H4 H).
  - exists R. apply (renumber_keeps HE R s p new s' IH Up Hn H).
Qed.
(** ** dispatch *)
Lemma search_in t mo (p : nat) : (mo < 32)%nat -> (forall k q, In (k, q) t -> (k < 32)%nat) -> mon_search t mo = Some p -> In (mo, p) t.
Proof.
  intros L Lt. unfold mon_search. destruct (find _ t) as [[k q]|] eqn:Q; [|discriminate]. cbn. intro X. injection X as ->. apply find_some in Q. destruct Q as [Q1 Q2]. cbn [fst] in Q2.
  pose proof (Lt _ _ Q1) as Lk. rewrite (bit_pow _ L), (bit_pow _ Lk) in Q2. destruct (Nat.eq_dec k mo) as [->|Nk]; [exact Q1|]. exfalso.
  apply negb_true_iff, N.eqb_neq in Q2. apply Q2. apply N.bits_inj_0. intro j. rewrite N.land_spec. destruct (N.eq_dec j (N.of_nat mo)) as [->|Nj].
  - rewrite (N.pow2_bits_false (N.of_nat k)) by lia. apply andb_false_r.
  - rewrite N.pow2_bits_false by lia. reflexivity.
Qed.
Lemma search_none t mo : (mo < 32)%nat -> (forall p : nat, ~ In (mo, p) t) -> (forall k q, In (k, q) t -> (k < 32)%nat) -> mon_search t mo = None.
Proof.
  intros L N Lt. destruct (mon_search t mo) as [p|] eqn:Q; [|reflexivity]. apply search_in in Q; auto. destruct (N p Q).
Qed.
Lemma search_some t mo p : (mo < 32)%nat -> In (mo, p) t -> exists q, mon_search t mo = Some q.
Proof.
  intros L H. unfold mon_search. destruct (find _ t) as [[k q]|] eqn:Q; [exists q; reflexivity|]. pose proof (find_none _ _ Q _ H) as X. cbn [fst] in X. apply negb_false_iff, N.eqb_eq in X. rewrite N.land_diag, (bit_pow _ L) in X.
  pose proof (N.pow_nonzero 2 (N.of_nat mo)). lia.
Qed.
Lemma mask_bit mo x : (mo < 32)%nat -> negb (N.land (bit mo) x =? 0) = N.testbit x (N.of_nat mo).
Proof.
  intro L. rewrite (bit_pow _ L). destruct (N.testbit x (N.of_nat mo)) eqn:Q.
  - apply negb_true_iff, N.eqb_neq. intro X. assert (N.testbit (N.land (2 ^ N.of_nat mo) x) (N.of_nat mo) = false) as Y by (rewrite X; apply N.bits_0). rewrite N.land_spec, N.pow2_bits_true, Q in Y. discriminate.
  - apply negb_false_iff, N.eqb_eq. apply N.bits_inj_0. intro j. rewrite N.land_spec. destruct (N.eq_dec j (N.of_nat mo)) as [->|Nj]; [rewrite Q; apply andb_false_r|rewrite N.pow2_bits_false by congruence; reflexivity].
Qed.
(** ** additions that must succeed *)
Definition frees (l : list bool) : nat := length (filter negb l).
Lemma frees_set l : forall mo, nth mo l true = false -> S (frees (set_nth l mo true)) = frees l.
Proof. unfold frees. induction l as [|a l IH]; intros [|mo] H; cbn in *; try discriminate; [subst a; reflexivity|]. destruct a; cbn; rewrite ?IH by exact H; auto. Qed.
Lemma frees_first l : forall i, (0 < frees l)%nat -> exists mo, first_free l i = Some mo.
Proof. induction l as [|a l IH]; intros i H; unfold frees in *; cbn in *; [lia|]. destruct a; cbn in H; [apply IH, H|eauto]. Qed.
Record room (a b c : nat) (s : mcfg) : Prop := {
  rm_orc : c_orc s = []; rm_main : c_main s = []; rm_len : length (c_used s) = NM E;
  rm_free : (a <= frees (c_used s))%nat; rm_tx : (length (c_txtab s) + b <= MON_MAX_TX)%nat; rm_rx : (length (c_rxtab s) + c <= MM E * NOBJ)%nat }.
Lemma slot_room p nr i (tx : bool) a b c s : room (S a) (if tx then S b else b) (if tx then c else S c) s -> exists s', slotf tx p nr i s = Some (ERR_OK, s') /\ room a b c s'.
Proof.
  intros [H1 H2 H3 H4 H5 H6].
  assert (exists s', core p nr i tx s = Some (ERR_OK, s') /\ room a b c s') as K.
  { unfold core. destruct (frees_first (c_used s) 0) as [mo Q]; [lia|]. rewrite Q. apply first_free_spec in Q. rewrite Nat.sub_0_r in Q. destruct Q as (_ & Q1 & Q2).
    assert (nth mo (c_used s) true = false) as Q1' by (rewrite (nth_indep _ true false) by exact Q2; exact Q1). apply frees_set in Q1'.
    unfold seqa, modi, mon_define. cbn [c_orc set_used set_tab c_used ERR_OK]. rewrite N.eqb_refl. rewrite H3 in Q2. apply Nat.ltb_lt in Q2. rewrite Q2, H1. rewrite N.eqb_refl.
    destruct tx; cbn [tx_sv].
    - unfold mon_tx_cnfg. cbn [c_txtab set_mmain set_filt set_used set_tab]. assert (length (c_txtab s) <? MON_MAX_TX = true)%nat as L by (apply Nat.ltb_lt; lia). rewrite L.
      eexists. split; [reflexivity|]. constructor; cbn [c_orc c_main c_used c_txtab c_rxtab set_txtab set_rxtab set_mmain set_mrx set_filt set_used set_tab]; auto; rewrite ?set_nth_length, ?app_length; cbn [length]; lia.
    - unfold mon_rx_cnfg. cbn [c_rxtab set_mrx set_filt set_used set_tab]. assert (length (c_rxtab s) <? MM E * NOBJ = true)%nat as L by (apply Nat.ltb_lt; lia). rewrite L.
      eexists. split; [reflexivity|]. constructor; cbn [c_orc c_main c_used c_txtab c_rxtab set_txtab set_rxtab set_mmain set_mrx set_filt set_used set_tab]; auto; rewrite ?set_nth_length, ?app_length; cbn [length]; lia. }
  destruct tx; [exact K|]. destruct K as (s' & K1 & K2). exists s'. split; [|exact K2]. change (seqa main_part (core p nr i false) s = Some (ERR_OK, s')). unfold seqa, main_part. rewrite H2, N.eqb_refl. exact K1.
Qed.
Lemma slots_room p nr (tx : bool) n : forall i a b c s, room (n + a) (if tx then n + b else b) (if tx then c else n + c) s -> exists s', loop n i (slotf tx p nr) s = Some (ERR_OK, s') /\ room a b c s'.
Proof.
  induction n as [|n IH]; intros i a b c s H; cbn [loop].
  - exists s. split; [reflexivity|]. destruct tx; exact H.
  - destruct (slot_room p nr i tx (n + a) (if tx then n + b else b) (if tx then c else n + c) s) as (s1 & H1 & H2); [destruct tx; exact H|].
    destruct (IH (S i) a b c s1 H2) as (s2 & H3 & H4). exists s2. split; [|exact H4]. unfold seqa. rewrite H1, N.eqb_refl. exact H3.
Qed.
Lemma slot_len p nr i (tx : bool) s e s' : slotf tx p nr i s = Some (e, s') -> (length (c_rxtab s') <= length (c_rxtab s) + if tx then 0 else 1)%nat.
Proof.
  assert (forall s1, core p nr i tx s1 = Some (e, s') -> (length (c_rxtab s') <= length (c_rxtab s1) + if tx then 0 else 1)%nat) as K.
  { intros s1 H. unfold core in H. destruct (first_free _ _) as [mo|]; [|injection H as <- <-; lia]. apply seqa_inv in H. destruct H as (e1 & s2 & Q & H). unfold modi in Q. injection Q as <- <-. destruct H as [[_ H]|[X _]]; [|congruence].
    apply seqa_inv in H. destruct H as (e2 & s3 & H2 & H).
    assert (c_rxtab s3 = c_rxtab s1) as T. { unfold mon_define in H2. destruct (_ <? _)%nat; [|discriminate]. cbn [c_orc set_used set_tab] in H2. destruct (c_orc s1) as [|[] r]; injection H2 as _ <-; destruct tx; reflexivity. }
    destruct H as [[-> H]|[Ne H]]; [|injection H as -> ->; rewrite T; lia]. apply cnfg_inv in H. destruct H as [[_ ->]|[_ ->]]; destruct tx; cbn; rewrite ?app_length, T; cbn [length]; lia. }
  destruct tx; [exact (K s)|]. intro H. change (seqa main_part (core p nr i false) s = Some (e, s')) in H. apply seqa_inv in H. destruct H as (e1 & s1 & H1 & H).
  assert (c_rxtab s1 = c_rxtab s) as T by (apply main_inv in H1; destruct H1 as [->|[r ->]]; reflexivity). destruct H as [[-> H]|[Ne H]]; [apply K in H; rewrite T in H; exact H|injection H as -> ->; rewrite T; lia].
Qed.
Lemma slots_len p nr (tx : bool) n : forall i s e s', loop n i (slotf tx p nr) s = Some (e, s') -> (length (c_rxtab s') <= length (c_rxtab s) + if tx then 0 else n)%nat.
Proof.
  induction n as [|n IH]; intros i s e s' H; cbn [loop] in H; [injection H as <- <-; lia|]. apply seqa_inv in H. destruct H as (e1 & s1 & H1 & H). apply slot_len in H1. destruct H as [[-> H]|[Ne H]]; [apply IH in H|injection H as -> ->]; destruct tx; lia.
Qed.
Lemma add_len nr nrx ntx rx0 tx0 s e s' : (nrx <= 4)%nat -> add_mon E nr nrx ntx rx0 tx0 s = Some (e, s') -> (length (c_rxtab s') + 4 * length (c_tab s) <= length (c_rxtab s) + 4 * length (c_tab s'))%nat \/ c_tab s' = c_tab s /\ c_rxtab s' = c_rxtab s.
Proof.
  intros Hx H. unfold add_mon in H. destruct (_ <? _)%nat; [left|injection H as <- <-; right; auto]. set (nr0 := if existsb _ _ then _ else nr) in H. clearbody nr0. unfold set_module_mon in H. set (k := limit_nr _ nr0) in H. clearbody k.
  set (pos := length (c_tab s)) in *.
  apply seqa_inv in H. destruct H as (e1 & s1 & Q & H). unfold modi in Q. injection Q as <- <-. destruct H as [[_ H]|[X _]]; [|congruence]. set (s1 := set_tab _ s) in H.
  assert (length (c_tab s1) = S pos) as L1 by (unfold s1; cbn; rewrite app_length; cbn; lia). assert (c_rxtab s1 = c_rxtab s) as T1 by reflexivity. clearbody s1.
  assert (forall n i (tx : bool) (s : mcfg) e s', loop n i (slotf tx pos k) s = Some (e, s') -> length (c_tab s') = length (c_tab s)) as Lt.
  { clearbody pos. clear. induction n as [|n IH]; intros i tx s e s' H; cbn [loop] in H; [injection H as <- <-; reflexivity|]. apply seqa_inv in H. destruct H as (e1 & s1 & H1 & H).
    assert (length (c_tab s1) = length (c_tab s)) as Q.
    { assert (forall s0, core pos k i tx s0 = Some (e1, s1) -> length (c_tab s1) = length (c_tab s0)) as K.
      { clear H H1. intros s0 H. unfold core in H. destruct (first_free _ _) as [mo|]; [|injection H as <- <-; reflexivity]. apply seqa_inv in H. destruct H as (e2 & s2 & Q & H). unfold modi in Q. injection Q as <- <-. destruct H as [[_ H]|[X _]]; [|congruence].
        apply seqa_inv in H. destruct H as (e2 & s3 & H2 & H).
        assert (length (c_tab s3) = length (c_tab s0)) as T. { unfold mon_define in H2. destruct (_ <? _)%nat; [|discriminate]. cbn [c_orc set_used set_tab] in H2. destruct (c_orc s0) as [|[] r]; injection H2 as _ <-; destruct tx; cbn; apply upd_at_len. }
        destruct H as [[-> H]|[Ne H]]; [|injection H as -> ->; exact T]. apply cnfg_inv in H. destruct H as [[_ ->]|[_ ->]]; destruct tx; exact T. }
      destruct tx; [exact (K s H1)|]. change (seqa main_part (core pos k i false) s = Some (e1, s1)) in H1. apply seqa_inv in H1. destruct H1 as (e2 & s2 & H2 & H1).
      assert (c_tab s2 = c_tab s) as T by (apply main_inv in H2; destruct H2 as [->|[r ->]]; reflexivity). destruct H1 as [[_ H1]|[_ H1]]; [apply K in H1; rewrite H1, T; reflexivity|injection H1 as -> ->; rewrite T; reflexivity]. }
    destruct H as [[_ H]|[_ H]]; [apply IH in H; lia|injection H as -> ->; exact Q]. }
  apply seqa_inv in H. destruct H as (e1 & s2 & H1 & H). pose proof (slots_len pos k true ntx 0 s1 e1 s2 H1) as G1. pose proof (Lt _ _ true _ _ _ H1) as G1'.
  destruct H as [[_ H]|[_ H]]; [|injection H as -> ->; rewrite T1 in G1; lia].
  apply seqa_inv in H. destruct H as (e2 & s3 & H2 & H). pose proof (slots_len pos k false nrx 0 s2 e2 s3 H2) as G2. pose proof (Lt _ _ false _ _ _ H2) as G2'.
  destruct H as [[_ H]|[_ H]]; [|injection H as -> ->; rewrite T1 in G1; lia].
  apply main_inv in H. assert (c_tab s' = c_tab s3 /\ c_rxtab s' = c_rxtab s3) as [T3 T4] by (destruct H as [->|[r ->]]; split; reflexivity). rewrite T3, T4. rewrite T1 in G1. lia.
Qed.
Lemma rxtab_len s : menv_ok E -> configured E s -> (length (c_rxtab s) <= 4 * length (c_tab s))%nat.
Proof.
  intros HE C. induction C as [orc main s H|s nr nrx ntx rx0 tx0 e s' C IH H1 H2 H3 H4 H|s p new s' C IH Up Hn H].
  - unfold mon_init in H. apply seqa_inv in H. destruct H as (e & s1 & Q & H). unfold modi in Q. injection Q as <- <-. destruct H as [[_ H]|[X _]]; [|congruence].
    apply seqa_inv in H. destruct H as (e & s2 & H1 & H). destruct H as [[-> H]|[Ne H]]; [|congruence].
    apply (define_effect HE) in H1. destruct H1 as (_ & _ & B1 & _). apply (define_effect HE) in H. destruct H as (_ & _ & B2 & _). specialize (B1 false). specialize (B2 false). cbn in B1, B2. rewrite B2, B1. cbn. lia.
  - apply add_len in H; [|exact H1]. destruct H as [H|[-> ->]]; lia.
  - destruct (configured_Inv HE s C) as [R I]. pose proof H as H'. destruct (renumber_keeps HE R s p new s' I Up Hn H') as (_ & L & _).
    assert (c_rxtab s' = c_rxtab s) as ->; [|lia].
    unfold renumber_mon in H. destruct (_ <? _)%nat; [|discriminate]. apply seqa_inv in H. destruct H as (e & s1 & Q & H). unfold modi in Q. injection Q as <- <-. destruct H as [[_ H]|[X _]]; [|congruence].
    assert (forall n i (tx : bool) m s s', loop n i (restf tx m new) s = Some (ERR_OK, s') -> c_rxtab s' = c_rxtab s) as K.
    { clear - HE. induction n as [|n IH]; intros i tx m s s' H; cbn [loop] in H; [injection H as <-; reflexivity|]. apply seqa_inv in H. destruct H as (e & s1 & H1 & H). destruct H as [[-> H]|[Ne H]]; [|congruence]. rewrite (IH _ _ _ _ _ H).
      destruct tx; unfold restf in H1; [apply (define_effect HE) in H1; destruct H1 as (_ & _ & B & _); exact (B false)|].
      apply seqa_inv in H1. destruct H1 as (e & s2 & H2 & H1). destruct H1 as [[-> H1]|[Ne H1]]; [|congruence]. apply (define_effect HE) in H1. destruct H1 as (_ & _ & B & _). specialize (B false). cbn in B. rewrite B. apply main_inv in H2. destruct H2 as [->|[r ->]]; reflexivity. }
    apply seqa_inv in H. destruct H as (e & s2 & H2 & H). destruct H as [[-> H]|[Ne H]]; [|congruence]. apply (K _ _ true) in H2.
    apply seqa_inv in H. destruct H as (e & s3 & H3 & H). destruct H as [[-> H]|[Ne H]]; [|congruence]. apply (K _ _ false) in H3.
    apply main_inv in H. destruct H as [->|[r ->]]; cbn; rewrite H3, H2; reflexivity.
Qed.
Lemma add_possible s nr nrx ntx rx0 tx0 : menv_ok E -> configured E s -> (nrx <= 4)%nat -> c_orc s = [] -> c_main s = [] -> (length (c_tab s) < MM E)%nat ->
  (nrx + ntx <= frees (c_used s))%nat -> (length (c_txtab s) + ntx <= MON_MAX_TX)%nat -> exists s', add_mon E nr nrx ntx rx0 tx0 s = Some (ERR_OK, s').
Proof.
  intros HE C Hx H1 H2 H3 H4 H5. pose proof (rxtab_len s HE C) as Lr. destruct (configured_Inv HE s C) as [R I].
  unfold add_mon. apply Nat.ltb_lt in H3. rewrite H3. apply Nat.ltb_lt in H3. set (nr0 := if existsb _ _ then _ else nr). clearbody nr0. unfold set_module_mon. set (k := limit_nr _ nr0). clearbody k. set (pos := length (c_tab s)) in *.
  set (s1 := set_tab (c_tab s ++ [CMod k nrx ntx rx0 tx0]) s).
  assert (room (ntx + (nrx + 0)) (ntx + 0) (nrx + 0) s1) as Rm by (constructor; cbn [s1 c_orc c_main c_used c_txtab c_rxtab set_tab]; auto; [apply (i_lu _ _ _ I)|lia|lia|unfold NOBJ; lia]).
  destruct (slots_room pos k true ntx 0 (nrx + 0) 0 (nrx + 0) s1 Rm) as (s2 & K1 & Rm2). destruct (slots_room pos k false nrx 0 0 0 0 s2 Rm2) as (s3 & K2 & Rm3).
  exists s3. unfold seqa, modi. rewrite N.eqb_refl. fold s1.
  change (loop ntx 0 (tx_slot_mon E pos k) s1) with (loop ntx 0 (slotf true pos k) s1). rewrite K1, N.eqb_refl.
  change (loop nrx 0 (rx_slot_mon E pos k) s2) with (loop nrx 0 (slotf false pos k) s2). rewrite K2, N.eqb_refl. unfold main_part. rewrite (rm_main _ _ _ _ Rm3). reflexivity.
Qed.
End Inv.
