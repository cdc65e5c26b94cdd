(** The transmission register: which objects are sent cyclically, in histories without number and type changes. *)
From Verif Require Import Words WordsFacts Bits ErrModel NodeModel NodeLib NodeInv NodeSpec NodeHw NodeCnt NodeSync NodeSilent NodePres NodeSysP.

(** ** bits of the register *)
Lemma txbit_pow pos obj : (NOBJ * pos + obj < 32)%nat -> txbit pos obj = 2 ^ N.of_nat (NOBJ * pos + obj).
Proof.
  intro H. unfold txbit. rewrite shiftl_mul, N.mul_1_l. unfold u32. apply N.mod_small.
  change 4294967296 with (2 ^ 32). apply N.pow_lt_mono_r; lia.
Qed.
Lemma txbit_test pos obj n : (NOBJ * pos + obj < 32)%nat -> N.testbit (txbit pos obj) (N.of_nat n) = (n =? NOBJ * pos + obj)%nat.
Proof. intro H. rewrite txbit_pow, N.pow2_bits_eqb by exact H. destruct (N.eqb_spec (N.of_nat (NOBJ * pos + obj)) (N.of_nat n)), (Nat.eqb_spec n (NOBJ * pos + obj)); auto; lia. Qed.
Lemma objmask_test pos k n : (NOBJ * pos + k <= 32)%nat -> N.testbit (objmask pos k) (N.of_nat n) = (NOBJ * pos <=? n)%nat && (n <? NOBJ * pos + k)%nat.
Proof.
  induction k as [|k IH]; intro H; cbn [objmask].
  - rewrite N.bits_0. destruct (Nat.leb_spec (NOBJ * pos) n); cbn [andb]; auto. symmetry. apply Nat.ltb_ge. lia.
  - rewrite N.lor_spec, IH, txbit_test by lia. destruct (Nat.eqb_spec n (NOBJ * pos + k)), (Nat.leb_spec (NOBJ * pos) n), (Nat.ltb_spec n (NOBJ * pos + k)), (Nat.ltb_spec n (NOBJ * pos + S k)); cbn; auto; lia.
Qed.
Lemma objmask_at pos k p o : (NOBJ * pos + k <= 32)%nat -> (k <= NOBJ)%nat -> (o < NOBJ)%nat ->
  N.testbit (objmask pos k) (N.of_nat (4 * p + o)) = (p =? pos)%nat && (o <? k)%nat.
Proof.
  intros H Hk Ho. rewrite objmask_test by exact H. unfold NOBJ in *.
  destruct (Nat.leb_spec (4 * pos) (4 * p + o)), (Nat.ltb_spec (4 * p + o) (4 * pos + k)), (Nat.eqb_spec p pos), (Nat.ltb_spec o k); cbn [andb]; auto; exfalso; lia.
Qed.

Lemma nth_map_seq {A} (f : nat -> A) n i d : (i < n)%nat -> nth i (map f (seq 0 n)) d = f i.
Proof. intro H. rewrite (nth_indep _ d (f 0%nat)) by (rewrite map_length, seq_length; exact H). rewrite map_nth, seq_nth by exact H. reflexivity. Qed.
Lemma nth_repeat' {A} (x d : A) n i : (i < n)%nat -> nth i (repeat x n) d = x.
Proof. revert i. induction n as [|n IH]; intros [|i] H; cbn; auto; try lia. apply IH. lia. Qed.

(** ** what the register depends on *)
Definition txinfo (m : modl) := (m_type m, m_nr m, m_ntx m, map t_dlc (m_tx m)).
Definition same_tx (s s' : node) : Prop :=
  n_tx s' = n_tx s /\ k_silent (n_cfg s') = k_silent (n_cfg s) /\ map txinfo (tab_of s') = map txinfo (tab_of s).
#[export] Instance pre_same_tx : Pre same_tx.
Proof. split; [intro; repeat split | intros a b c (A1 & A2 & A3) (B1 & B2 & B3); repeat split; congruence]. Qed.
Lemma same_tx_mod s s' p : map txinfo (tab_of s') = map txinfo (tab_of s) -> txinfo (modat s' p) = txinfo (modat s p).
Proof. intro H. unfold modat. rewrite <- !(map_nth txinfo), H. reflexivity. Qed.
Lemma txinfo_dlc m m' o : txinfo m' = txinfo m -> t_dlc (txat m' o) = t_dlc (txat m o).
Proof. intro H. injection H as _ _ _ H. unfold txat. change 0 with (t_dlc txo0) in *. rewrite <- !(map_nth t_dlc), H. reflexivity. Qed.
Lemma same_tx_upd_mod pos f s : (forall m, txinfo (f m) = txinfo m) -> same_tx s (upd_mod pos f s).
Proof.
  intro Hf. repeat split. unfold upd_mod, upd_cfg, tab_of. cbn. rewrite map_set_nth, Hf.
  destruct (Nat.lt_ge_cases pos (length (k_tab (n_cfg s)))) as [L|L].
  - apply set_nth_id. rewrite (nth_error_nth' _ (txinfo modl0)) by (rewrite map_length; exact L). f_equal. apply map_nth.
  - apply set_nth_beyond. rewrite map_length. exact L.
Qed.
Lemma txinfo_upd_rx i f m : txinfo (upd_rx i f m) = txinfo m.
Proof. reflexivity. Qed.
Lemma txinfo_dlc_s i m g : (forall o, t_dlc (g o) = t_dlc o) -> txinfo (upd_txo i g m) = txinfo m.
Proof.
  intro Hg. unfold txinfo, upd_txo. cbn. f_equal. rewrite map_set_nth, Hg. destruct (Nat.lt_ge_cases i (length (m_tx m))) as [L|L].
  - apply set_nth_id. rewrite (nth_error_nth' _ (t_dlc txo0)) by (rewrite map_length; exact L). f_equal. apply map_nth.
  - apply set_nth_beyond. rewrite map_length. exact L.
Qed.
Lemma map_mapfirst {A B} (g : A -> B) n f l : (forall x, g (f x) = g x) -> map g (mapfirst n f l) = map g l.
Proof.
  intro H. unfold mapfirst. rewrite map_app, map_map, (map_ext _ g) by exact H. rewrite <- map_app, firstn_skipn. reflexivity.
Qed.
Lemma txinfo_silenced m : txinfo (silenced m) = txinfo m.
Proof. unfold txinfo, silenced. cbn. rewrite map_mapfirst by reflexivity. reflexivity. Qed.
Lemma txinfo_awakened m : txinfo (awakened m) = txinfo m.
Proof. unfold txinfo, awakened. cbn. rewrite map_mapfirst by reflexivity. reflexivity. Qed.
Ltac tx_leaf := first [ repeat split; reflexivity | apply same_tx_upd_mod; intro; first [reflexivity | apply txinfo_dlc_s; intro; reflexivity] ].

Section Tx.
Variable E : env.
Hypothesis HE : env_ok E.

Lemma tx_define_obj mo id mask dlc rx sv sy : pres same_tx (define_obj E mo id mask dlc rx sv sy).
Proof. unfold define_obj, hw_define. pres_tac; tx_leaf. Qed.
Lemma tx_rx_slot p n i : pres same_tx (rx_slot E p n i).
Proof. unfold rx_slot, next_free, rx_data_cnfg. repeat (simple apply tx_define_obj || pres_tac1); tx_leaf. Qed.
Definition shared_objs (ctrlpos : nat) (nr mask : N) : M N :=
  (if ASY E then
     (r <- get_async_ctrl_obj E ctrlpos ;;
      match r with
      | (Some mo, e) => define_obj E mo (can_ident BASE_CTRL_RX nr 0) MASK_ONE 8 true SvAsyncCtrl false
      | (None, e) => ret e
      end) >>>
     define_obj E MO_ASYNC_DATA BASE_DATA_RX (N.lor MASK_CLASS mask) 8 true SvAsync false
   else ret ERR_OK) >>>
  define_obj E MO_SYS1 ID_SYS (N.lor MASK_CLASS mask) 8 true SvRx false >>>
  (if SYS2 E then define_obj E MO_SYS2 ID_SYS (N.lor MASK_CLASS mask) 8 true SvRx false else ret ERR_OK).
Lemma andthen_assoc a b c s : (a >>> (b >>> c)) s = ((a >>> b) >>> c) s.
Proof.
  unfold andthen, bind. destruct (a s) as [[e s1]| |]; auto. destruct (e =? ERR_OK) eqn:Ee; auto. cbn. rewrite Ee. reflexivity.
Qed.
Lemma define_shared_eq a b c d s : define_shared E a b c d s = (shared_objs a c d >>> (st <- gets (fun s => silat s b) ;; set_silent_awake E b st)) s.
Proof.
  unfold define_shared, shared_objs. set (A := if ASY E then _ else _). set (B := define_obj E MO_SYS1 _ _ _ _ _ _). set (C := if SYS2 E then _ else _). set (D := bind (gets _) _).
  unfold andthen, bind. destruct (A s) as [[e s1]| |]; auto. destruct (e =? ERR_OK) eqn:Ea; [|cbn; rewrite Ea; reflexivity].
  destruct (B s1) as [[e2 s2]| |]; auto. destruct (e2 =? ERR_OK) eqn:Eb; [|cbn; rewrite Eb; reflexivity]. reflexivity.
Qed.
Lemma tx_shared a c d : pres same_tx (shared_objs a c d).
Proof. unfold shared_objs, get_async_ctrl_obj, next_free. repeat (simple apply tx_define_obj || pres_tac1); tx_leaf. Qed.

Lemma wf_shared a c d : pres (WFR E) (shared_objs a c d).
Proof. unfold shared_objs. repeat (simple apply wf_define_obj || simple apply wf_get_async || pres_tac1). Qed.
Lemma wf_rx_slot p n i : pres (WFR E) (rx_slot E p n i).
Proof. unfold rx_slot, next_free. repeat (simple apply wf_define_obj || simple apply wf_rx_data_cnfg || pres_tac1); try wf_leaf. Qed.
Lemma wf_tx_loop pos nr n i : pres (WFR E) (for_err n i (fun i => modify (upd_mod pos (upd_txo i (fun o => set_t_dlc_s o (t_dlc o)))) ;;; tx_data_cnfg E pos i nr)).
Proof. repeat (simple apply wf_tx_data_cnfg || pres_tac1); try wf_leaf. Qed.

(** ** the invariant *)
Record TxG (s : node) (cnt : nat -> nat) (on : nat -> bool) : Prop := {
  tg_bits : forall p o, (p < MAXM E)%nat -> (o < NOBJ)%nat -> cyclic s p o = on p && (o <? cnt p)%nat;
  tg_high : forall n, (NOBJ * MAXM E <= n)%nat -> N.testbit (x_reg (n_tx s)) (N.of_nat n) = false;
  tg_data : forall p o, (p < MAXM E)%nat -> (o < cnt p)%nat ->
    get2 (x_id (n_tx s)) p o = can_ident BASE_TX (m_nr (modat s p)) o /\ get2 (x_dlc (n_tx s)) p o = t_dlc (txat (modat s p) o);
  tg_end : forall p o, (p < MAXM E)%nat -> (o < cnt p)%nat -> (NOBJ * p + o <= x_end (n_tx s))%nat
}.
Definition ntx (s : node) (p : nat) : nat := m_ntx (modat s p).
Record TxI (s : node) : Prop := {
  ti_g : TxG s (ntx s) (awake s);
  ti_unused : forall p, (p < MAXM E)%nat -> in_use (modat s p) = false -> ntx s p = 0%nat /\ awake s p = true;
  ti_prefix : forall p q, (p < q)%nat -> (q < MAXM E)%nat -> in_use (modat s q) = true -> in_use (modat s p) = true;
  ti_nr : forall p, (p < MAXM E)%nat -> 2 <= m_nr (modat s p) <= 255
}.
Lemma TxG_same s s' cnt on : same_tx s s' -> TxG s cnt on -> TxG s' cnt on.
Proof.
  intros (T & S & M) [G1 G2 G3 G4]. split; unfold cyclic in *; rewrite ?T; auto.
  intros p o Hp Ho. pose proof (same_tx_mod _ _ p M) as I. rewrite (txinfo_dlc _ _ o I). injection I as _ -> _ _. apply G3; auto.
Qed.
Lemma TxG_ext s cnt on cnt' on' : (forall p, (p < MAXM E)%nat -> cnt' p = cnt p) -> (forall p, (p < MAXM E)%nat -> on' p = on p) -> TxG s cnt on -> TxG s cnt' on'.
Proof.
  intros Hc Ho [G1 G2 G3 G4]. split; auto.
  - intros p o Hp H. rewrite Hc, Ho; auto.
  - intros p o Hp H. rewrite Hc in H; auto.
  - intros p o Hp H. rewrite Hc in H; auto.
Qed.
Lemma same_tx_info s s' : same_tx s s' -> (forall p, ntx s' p = ntx s p) /\ (forall p, awake s' p = awake s p) /\ (forall p, in_use (modat s' p) = in_use (modat s p)) /\ (forall p, m_nr (modat s' p) = m_nr (modat s p)).
Proof.
  intros (T & S & M). repeat split; intro p; try (pose proof (same_tx_mod _ _ p M) as I; injection I as I1 I2 I3 I4); unfold ntx, in_use; try congruence.
  unfold awake, silat. rewrite S. reflexivity.
Qed.
Lemma TxI_same s s' : same_tx s s' -> TxI s -> TxI s'.
Proof.
  intros H [G U P Nr]. destruct (same_tx_info _ _ H) as (N1 & A1 & U1 & R1). split.
  - eapply TxG_ext; [| |eapply TxG_same; eauto]; auto.
  - intros p Hp Hu. rewrite N1, A1. rewrite U1 in Hu. auto.
  - intros p q Hpq Hq Hu. rewrite U1 in *. eauto.
  - intros p Lp. rewrite R1. auto.
Qed.
Lemma keeps_same {A} (m : M A) : pres same_tx m -> keeps E TxI m.
Proof. intros Hp s a s' _ I H. apply Hp in H. eapply TxI_same; eauto. Qed.

Lemma modat_ok s p : WF E s -> modok (modat s p).
Proof. intros [(_ & F & _) _]. apply nth_modok, F. Qed.
Lemma tab_len s : WF E s -> length (tab_of s) = MAXM E.
Proof. intros [(L & _) _]. exact L. Qed.
Lemma sil_len s : WF E s -> length (k_silent (n_cfg s)) = MAXM E.
Proof. intros [(_ & _ & L & _) _]. exact L. Qed.
Lemma pos32 p o : (p < MAXM E)%nat -> (o <= NOBJ)%nat -> (NOBJ * p + o <= 32)%nat.
Proof. destruct HE as ((H1 & H2) & _). unfold NOBJ. lia. Qed.

Lemma marked_silat s pos st p : (pos < length (k_silent (n_cfg s)))%nat -> silat (marked s pos st) p = if (p =? pos)%nat then st else silat s p.
Proof.
  intro H. unfold silat, marked. cbn. destruct (Nat.eqb_spec p pos) as [->|N]; [apply nth_set_nth_same, H|apply nth_set_nth_other; congruence].
Qed.
Lemma keeps_silent pos st s e s' : WF E s -> (in_use (modat s pos) = true \/ st = AWAKE) -> (st = SILENT \/ st = AWAKE) -> TxI s -> set_silent_awake E pos st s = Ret (e, s') -> TxI s'.
Proof.
  intros W Hu Hst [G U P Nr] H. apply set_silent_awake_eq in H; [|exact W]. destruct (Nat.ltb_spec pos (MAXM E)) as [Hp|Hp]; [|destruct H as [_ ->]; split; auto].
  cbv zeta in H. pose proof (tab_len _ W) as Lt. pose proof (sil_len _ W) as Ls. pose proof (modat_ok _ pos W) as (_ & Mt & _).
  assert (exists f g, (forall m, txinfo (f m) = txinfo m) /\ n_cfg s' = n_cfg (upd_mod pos f (marked s pos st)) /\ n_tx s' = set_x_reg (n_tx s) (g (x_reg (n_tx s))) /\
    forall x n, N.testbit (g x) (N.of_nat n) = if N.testbit (objmask pos (ntx s pos)) (N.of_nat n) then (st =? AWAKE) else N.testbit x (N.of_nat n)) as (f & g & Hf & Hc & Hx & Hg).
  { destruct Hst as [-> | ->].
    - change (SILENT =? SILENT) with true in H. cbv iota in H. destruct H as [_ ->]. exists silenced, (fun x => N.ldiff x (objmask pos (ntx s pos))).
      split; [apply txinfo_silenced|]. split; [reflexivity|]. split; [reflexivity|]. intros x n. rewrite N.ldiff_spec. change (SILENT =? AWAKE) with false. destruct (N.testbit (objmask _ _) _); cbn; rewrite ?andb_true_r, ?andb_false_r; reflexivity.
    - change (AWAKE =? SILENT) with false in H. change (AWAKE =? AWAKE) with true in H. cbv iota in H. destruct H as [_ ->]. exists awakened, (fun x => N.lor x (objmask pos (ntx s pos))).
      split; [apply txinfo_awakened|]. split; [reflexivity|]. split; [reflexivity|]. intros x n. rewrite N.lor_spec. change (AWAKE =? AWAKE) with true. destruct (N.testbit (objmask _ _) _); cbn; rewrite ?orb_true_r, ?orb_false_r; reflexivity. }
  clear H. assert (forall p, txinfo (modat s' p) = txinfo (modat s p)) as Hi.
  { intro p. unfold modat, tab_of. rewrite Hc. change (nth p (k_tab (n_cfg (upd_mod pos f (marked s pos st)))) modl0) with (modat (upd_mod pos f (marked s pos st)) p).
    rewrite modat_upd_mod by (change (tab_of (marked s pos st)) with (tab_of s); lia). destruct (Nat.eqb_spec p pos) as [->|]; [rewrite Hf|]; reflexivity. }
  assert (forall p, awake s' p = if (p =? pos)%nat then st =? AWAKE else awake s p) as Ha.
  { intro p. unfold awake. replace (silat s' p) with (silat (marked s pos st) p) by (unfold silat; rewrite Hc; reflexivity). rewrite marked_silat by lia. destruct (p =? pos)%nat; reflexivity. }
  assert (forall p, ntx s' p = ntx s p /\ in_use (modat s' p) = in_use (modat s p) /\ m_nr (modat s' p) = m_nr (modat s p)) as Hn.
  { intro p. pose proof (Hi p) as I. injection I as I1 I2 I3 I4. unfold ntx, in_use. rewrite I1, I2, I3. auto. }
  destruct G as [G1 G2 G3 G4]. split.
  - split.
    + intros p o Lp Lo. unfold cyclic. rewrite Hx. cbn [x_reg set_x_reg]. rewrite Hg, objmask_at; [|apply pos32; auto|exact Mt|exact Lo].
      destruct (Hn p) as (-> & _). rewrite Ha. fold (cyclic s p o). rewrite G1 by auto. destruct (Nat.eqb_spec p pos) as [->|]; cbn [andb]; [|reflexivity].
      destruct (o <? ntx s pos)%nat; rewrite ?andb_true_r, ?andb_false_r; reflexivity.
    + intros n Ln. rewrite Hx. cbn [x_reg set_x_reg]. rewrite Hg, objmask_test by (apply pos32; auto). rewrite G2 by exact Ln.
      destruct (Nat.ltb_spec n (NOBJ * pos + ntx s pos)); [|rewrite andb_false_r; reflexivity]. exfalso. unfold NOBJ, ntx in *. lia.
    + intros p o Lp Lo. destruct (Hn p) as (N1 & _ & N3). rewrite N1 in Lo. rewrite N3, (txinfo_dlc _ _ o (Hi p)), Hx. apply G3; auto.
    + intros p o Lp Lo. destruct (Hn p) as (N1 & _ & N3). rewrite N1 in Lo. rewrite Hx. apply G4; auto.
  - intros p Lp Lu. destruct (Hn p) as (N1 & N2 & _). rewrite N2 in Lu. rewrite N1, Ha. destruct (Nat.eqb_spec p pos) as [->|]; [|auto].
    destruct Hu as [Hu| ->]; [congruence|]. split; [apply U; auto|reflexivity].
  - intros p q Hpq Hq. destruct (Hn p) as (_ & -> & _). destruct (Hn q) as (_ & -> & _). eauto.
  - intro p. destruct (Hn p) as (_ & _ & ->). auto.
Qed.

(** ** adding a module *)
Definition upd {A} (f : nat -> A) (p : nat) (v : A) : nat -> A := fun q => if (q =? p)%nat then v else f q.
Definition txi_ok (s s' : node) : Prop := k_silent (n_cfg s') = k_silent (n_cfg s) /\ map txinfo (tab_of s') = map txinfo (tab_of s).
Lemma cfg_loop pos nr cnt on n : (pos < MAXM E)%nat -> on pos = true -> (forall p, (p < MAXM E)%nat -> (0 < cnt p)%nat -> p <> pos -> (p < pos)%nat) -> (forall p, (cnt p <= NOBJ)%nat) ->
  forall i s e s', WF E s -> m_nr (modat s pos) = nr -> (i + n <= NOBJ)%nat -> TxG s (upd cnt pos i) on ->
  for_err n i (fun i => modify (upd_mod pos (upd_txo i (fun o => set_t_dlc_s o (t_dlc o)))) ;;; tx_data_cnfg E pos i nr) s = Ret (e, s') ->
  e = ERR_OK /\ TxG s' (upd cnt pos (i + n)%nat) on /\ txi_ok s s'.
Proof.
  intros Hp Hon Hc H4. induction n as [|n IH]; intros i s e s' W Hn Hi G H; cbn [for_err] in H.
  - apply ret_inv in H. destruct H as [-> ->]. rewrite Nat.add_0_r. split; [reflexivity|]. split; [exact G|]. split; reflexivity.
  - mbind H as e1 s1 H1.
    mbind H1 as u s2 H2. apply modify_inv in H2. assert (same_tx s s2) as S2 by (subst s2; apply same_tx_upd_mod; intro; apply txinfo_dlc_s; intro; reflexivity).
    pose proof (TxG_same _ _ _ _ S2 G) as G2. pose proof (same_tx_info _ _ S2) as (_ & _ & _ & N2). destruct S2 as (_ & S2a & S2b).
    assert (WF E s2) as W2. { revert W. change (WFR E s s2). subst s2. apply wf_upd_mod. intros m Hm. unfold modok in *. cbn. rewrite set_nth_length. exact Hm. }
    assert (WF E s1) as W1 by (eapply (wf_tx_data_cnfg E); [exact H1|exact W2]).
    unfold tx_data_cnfg in H1. destruct (Nat.leb_spec (MAXM E) pos) as [Q1|Q1]; [lia|]. destruct (Nat.leb_spec NOBJ i) as [Q2|Q2]; [lia|].
    mbind H1 as d s3 H3. apply gets_inv in H3. destruct H3 as [-> ->]. mbind H1 as u3 s3 H3. apply modify_inv in H3. apply ret_inv in H1. destruct H1 as [-> ->].
    change (ERR_OK =? ERR_OK) with true in H. cbv iota in H.
    assert (TxG s3 (upd cnt pos (S i)) on) as G3.
    { subst s3. destruct G2 as [A1 A2 A3 A4]. destruct W2 as (_ & (R1 & R2) & _). split.
      - intros p o Lp Lo. unfold cyclic. cbn [upd_tx set_n_tx n_tx x_reg]. rewrite N.lor_spec. fold (cyclic s2 p o). rewrite A1 by auto. rewrite txbit_test by (pose proof (pos32 pos (S i) Hp Q2); unfold NOBJ in *; lia).
        unfold upd. destruct (Nat.eqb_spec p pos) as [->|Np].
        + rewrite Hon. cbn [andb]. destruct (Nat.ltb_spec o i), (Nat.ltb_spec o (S i)), (Nat.eqb_spec (4 * pos + o) (NOBJ * pos + i)); cbn; auto; unfold NOBJ in *; lia.
        + destruct (Nat.eqb_spec (4 * p + o) (NOBJ * pos + i)); [unfold NOBJ in *; lia|]. apply orb_false_r.
      - intros k Lk. cbn [upd_tx set_n_tx n_tx x_reg]. rewrite N.lor_spec, A2, txbit_test by (auto; pose proof (pos32 pos (S i) Hp Q2); unfold NOBJ in *; lia).
        destruct (Nat.eqb_spec k (NOBJ * pos + i)); [unfold NOBJ in *; lia|reflexivity].
      - intros p o Lp Lo. cbn [upd_tx set_n_tx n_tx x_id x_dlc]. rewrite !(get2_set2 E) by auto. change (modat (upd_tx _ s2) p) with (modat s2 p). unfold upd in Lo. destruct (Nat.eqb_spec p pos) as [->|Np]; cbn [andb].
        + destruct (Nat.eqb_spec o i) as [->|Ni].
          * rewrite N2, Hn. auto.
          * apply A3; auto. unfold upd. rewrite Nat.eqb_refl. lia.
        + apply A3; auto. unfold upd. destruct (Nat.eqb_spec p pos); [congruence|auto].
      - intros p o Lp Lo. cbn [upd_tx set_n_tx n_tx x_end]. unfold upd in Lo. destruct (Nat.eqb_spec p pos) as [->|Np]; [lia|].
        specialize (H4 p).
        assert (p < pos)%nat by (apply Hc; auto; lia). unfold NOBJ in *. lia. }
    apply IH in H; auto.
    + destruct H as (-> & G4 & T1 & T2). replace (i + S n)%nat with (S i + n)%nat by lia. split; [reflexivity|]. split; [exact G4|]. split; [rewrite T1|rewrite T2]; subst s3; auto.
    + subst s3. exact (eq_trans (N2 pos) Hn).
    + lia.
Qed.

Lemma txinfo_new d nr rxs txs : txinfo (new_entry d nr rxs txs) = (m_type d, nr, m_ntx d, map t_dlc (m_tx d)).
Proof.
  unfold txinfo, new_entry. cbn. f_equal. revert txs. induction (m_tx d) as [|o l IH]; intros [|x txs]; cbn; auto. f_equal. apply IH.
Qed.
Lemma desc_nonempty d : desc_ok d = true -> hd 0 (m_type d) <> 0 /\ (m_ntx d <= NOBJ)%nat /\ (m_nrx d <= NOBJ)%nat /\ length (m_rx d) = NOBJ /\ length (m_tx d) = NOBJ.
Proof.
  unfold desc_ok. rewrite !andb_true_iff, negb_true_iff, N.eqb_neq, !Nat.leb_le, !Nat.eqb_eq. tauto.
Qed.
Lemma TxG_fields s s' cnt on : n_tx s' = n_tx s -> (forall p, (0 < cnt p)%nat -> txinfo (modat s' p) = txinfo (modat s p)) -> TxG s cnt on -> TxG s' cnt on.
Proof.
  intros T M [G1 G2 G3 G4]. split; unfold cyclic in *; rewrite ?T; auto.
  intros p o Hp Ho. assert (txinfo (modat s' p) = txinfo (modat s p)) as I by (apply M; lia). rewrite (txinfo_dlc _ _ o I). injection I as _ -> _ _. apply G3; auto.
Qed.
Lemma modat_len_lt s p : in_use (modat s p) = true -> (p < length (tab_of s))%nat.
Proof. intro H. destruct (Nat.lt_ge_cases p (length (tab_of s))); auto. unfold modat in H. rewrite nth_overflow in H by auto. discriminate. Qed.

Lemma TxI_set_module i d nr rxs txs s e s' : WF E s -> TxI s -> (i < MAXM E)%nat -> in_use (modat s i) = false -> (forall p, (p < i)%nat -> in_use (modat s p) = true) ->
  set_module E i d nr rxs txs s = Ret (e, s') -> TxI s'.
Proof.
  intros W [G U P Nr] Hi Hu Hb H. apply set_module_inv in H. destruct H as (Hd & s1 & H & Hs). apply desc_nonempty in Hd. destruct Hd as (D1 & D2 & D3 & D4 & D5).
  enough (TxI s1) as I1. { destruct Hs as [-> | ->]; [exact I1|]. revert I1. apply TxI_same. repeat split. }
  clear Hs s'. set (m := new_entry d (limit_nr i nr) rxs txs) in *. set (sa := upd_mod i (fun _ => m) s) in *.
  assert (m_nr m = limit_nr i nr) as Hnr by reflexivity. assert (m_ntx m = m_ntx d) as Hnt by reflexivity. assert (in_use m = true) as Hm. { unfold in_use. apply negb_true_iff, N.eqb_neq. exact D1. }
  pose proof (tab_len _ W) as Lt. destruct (U i Hi Hu) as [U1 U2].
  assert (forall p, modat sa p = if (p =? i)%nat then m else modat s p) as Ma. { intro p. unfold sa. rewrite modat_upd_mod by lia. reflexivity. }
  assert (WF E sa) as Wa. { revert W. change (WFR E s sa). apply wf_upd_mod. intros _ _. unfold modok, m, new_entry. cbn. rewrite length_addrs_rx, length_addrs_tx. tauto. }
  assert (forall p, (p < MAXM E)%nat -> (0 < ntx s p)%nat -> p <> i -> (p < i)%nat) as Hc.
  { intros p Lp Np Ne. destruct (Nat.lt_ge_cases p i); auto. exfalso. destruct (in_use (modat s p)) eqn:Eu; [|apply U in Eu; auto; lia].
    rewrite (P i p) in Hu; auto; [discriminate|lia]. }
  assert (forall p, (ntx s p <= NOBJ)%nat) as H4 by (intro p; apply (modat_ok s p W)).
  assert (TxG sa (upd (ntx s) i 0%nat) (awake s)) as Ga.
  { apply (TxG_fields s); [reflexivity| |].
    - intros p. unfold upd. rewrite Ma. destruct (Nat.eqb_spec p i); [lia|auto].
    - revert G. apply TxG_ext; auto. intros p Lp. unfold upd. destruct (Nat.eqb_spec p i) as [->|]; auto. }
  (* from a state that has the new entry and its bits to the invariant *)
  assert (forall sx, txi_ok sa sx -> TxG sx (upd (ntx s) i (m_ntx d)) (awake s) -> TxI sx) as Fin.
  { intros sx (S1 & S2) Gx. assert (forall p, txinfo (modat sx p) = if (p =? i)%nat then txinfo m else txinfo (modat s p)) as Mx.
    { intro p. rewrite (same_tx_mod _ _ p S2), Ma. destruct (p =? i)%nat; reflexivity. }
    assert (forall p, ntx sx p = upd (ntx s) i (m_ntx d) p) as Nx. { intro p. unfold ntx, upd. specialize (Mx p). destruct (p =? i)%nat; injection Mx as _ _ Mx _; exact Mx. }
    assert (forall p, awake sx p = awake s p) as Ax. { intro p. unfold awake, silat. rewrite S1. reflexivity. }
    assert (forall p, in_use (modat sx p) = if (p =? i)%nat then true else in_use (modat s p)) as Ux.
    { intro p. specialize (Mx p). unfold in_use in *. destruct (p =? i)%nat; injection Mx as Mx _ _ _; rewrite Mx; auto. }
    split.
    - revert Gx. apply TxG_ext; auto.
    - intros p Lp. rewrite Ux, Nx, Ax. unfold upd. destruct (p =? i)%nat; [discriminate|auto].
    - intros p q Lpq Lq. rewrite !Ux. destruct (Nat.eqb_spec p i) as [->|Np]; auto. destruct (Nat.eqb_spec q i) as [->|Nq]; [intros _; apply Hb; exact Lpq|]. eauto.
    - intro p. specialize (Mx p). destruct (p =? i)%nat; injection Mx as _ Mx _ _; rewrite Mx; [intros _|auto].
      clear - Hi HE. destruct HE as ((_ & M8) & _). unfold limit_nr, NR_MAX, NR_MIN, NR_DEF. destruct (N.ltb_spec 124 nr), (N.ltb_spec nr 2); cbn [orb]; lia. }
  unfold set_module_rest, andthen in H. mbind H as e1 sb H1. assert (WF E sb) as Wb by (eapply wf_tx_loop; eauto). apply (cfg_loop i (limit_nr i nr) (ntx s) (awake s)) in H1; auto; [|rewrite Ma, Nat.eqb_refl; exact Hnr].
  destruct H1 as (-> & Gb & Sb). change (0 + m_ntx d)%nat with (m_ntx d) in Gb. change (ERR_OK =? ERR_OK) with true in H. cbv iota in H.
  mbind H as e2 sc H2. assert (same_tx sb sc) as Sc. { revert H2. apply pres_for_err; [typeclasses eauto|]. intro; apply tx_rx_slot. }
  assert (WF E sc) as Wc. { revert Wb. change (WFR E sb sc). revert H2. apply pres_for_err; [typeclasses eauto|]. intro; apply wf_rx_slot. }
  pose proof (TxG_same _ _ _ _ Sc Gb) as Gc. assert (txi_ok sa sc) as Tc. { destruct Sb, Sc as (_ & ? & ?). split; congruence. }
  destruct (e2 =? ERR_OK); [|apply ret_inv in H; destruct H as [_ ->]; auto].
  mbind H as tab sd Hd. apply gets_inv in Hd. destruct Hd as [-> ->]. mbind H as n sd Hd. apply gets_inv in Hd. destruct Hd as [-> ->].
  rewrite define_shared_eq in H. unfold andthen in H. mbind H as e3 sd Hd. assert (WF E sd) as Wd. { eapply wf_shared; [exact Hd|exact Wc]. }
  apply tx_shared in Hd. pose proof (TxG_same _ _ _ _ Hd Gc) as Gd. assert (txi_ok sa sd) as Td. { destruct Tc, Hd as (_ & ? & ?). split; congruence. }
  destruct (e3 =? ERR_OK); [|apply ret_inv in H; destruct H as [_ ->]; auto]. mbind H as st se He. apply gets_inv in He. destruct He as [-> ->].
  assert (silat sd i = AWAKE) as Aw. { apply N.eqb_eq. change (awake sd i = true). rewrite <- U2. unfold awake, silat. rewrite (proj1 Td). reflexivity. }
  rewrite Aw in H. revert H. apply keeps_silent; auto.
Qed.

Lemma TxI_add_module d nr rxs txs : keeps E TxI (add_module E d nr rxs txs).
Proof.
  intros s e s' W I H. unfold add_module in H. mbind H as tab s0 H0. apply gets_inv in H0. destruct H0 as [-> ->].
  destruct (first_unused (tab_of s) 0) as [i|] eqn:Fu; [|apply ret_inv in H; destruct H as [_ ->]; exact I].
  apply first_unused_spec in Fu. rewrite Nat.sub_0_r in Fu. destruct Fu as (Li & Ui & Bi). pose proof (tab_len _ W) as Lt.
  assert (forall nr e1 s1, set_module E i d nr rxs txs s = Ret (e1, s1) -> TxI s1) as Hs by (intros nr0 e1 s1 H1; eapply TxI_set_module; eauto; lia).
  assert (forall e, pres same_tx (report_if e)) as Hr. { intro. apply pres_report_if; [typeclasses eauto|]. intros; tx_leaf. }
  destruct (existsb _ _); mbind H as e1 s1 H1; apply Hs in H1; mbind H as u s2 H2; apply ret_inv in H; destruct H as [_ ->]; eapply TxI_same; eauto; eapply Hr; eauto.
Qed.
Lemma strn_hd n x l : strn_eq (S n) x l = true -> hd 0 l = hd 0 x.
Proof. cbn [strn_eq]. destruct (N.eqb_spec (hd 0 x) (hd 0 l)); congruence. Qed.
Lemma tx_set_baudrate r : pres same_tx (set_baudrate r).
Proof.
  unfold set_baudrate. refine (pres_bind _ _ _ _ _); [pres_tac|intro tab]. generalize ERR_OK.
  induction tab as [|x tab IH]; intro e; cbn [set_baudrate_loop]; [pres_tac|].
  destruct (r =? x); [|apply IH]. unfold hw_set_baudrate. repeat (simple apply IH || pres_tac1); tx_leaf.
Qed.
Lemma tx_set_node_mode m : pres same_tx (set_node_mode m).
Proof. unfold set_node_mode. pres_tac; tx_leaf. Qed.
Lemma find_type_nr_spec tab type nr i j : find_type_nr tab type nr i = Some j ->
  (i <= j < i + length tab)%nat /\ strn_eq 5 type (m_type (nth (j - i) tab modl0)) = true /\ m_nr (nth (j - i) tab modl0) = nr.
Proof.
  revert i. induction tab as [|m t IH]; intros i H; cbn [find_type_nr] in H; [discriminate|].
  destruct (strn_eq 5 type (m_type m) && (m_nr m =? nr)) eqn:Em.
  - injection H as <-. rewrite Nat.sub_diag. cbn [nth]. apply andb_prop in Em. destruct Em as [E1 E2]. apply N.eqb_eq in E2. cbn [length]. repeat split; auto; lia.
  - apply IH in H. destruct H as (H1 & H2). replace (j - i)%nat with (S (j - S i)) by lia. cbn [nth length]. split; [lia|exact H2].
Qed.
Lemma plain_sys_silent data nr st : byte_at data 1 <> 0 -> (st = SILENT \/ st = AWAKE) -> keeps E TxI (sys_silent_awake E data nr st).
Proof.
  intros Hb Hst s e s' W Hi H. unfold sys_silent_awake in H. destruct (SERIAL E =? serial_of data); [|apply ret_inv in H; destruct H as [_ ->]; exact Hi].
  mbind H as tab s0 H0. apply gets_inv in H0. destruct H0 as [-> ->]. destruct (find_nr (tab_of s) nr 0) as [p|]; [|apply ret_inv in H; destruct H as [_ ->]; exact Hi].
  mbind H as m s0 H0. apply gets_inv in H0. destruct H0 as [-> ->]. destruct (strn_eq 4 (m_type (modat s p)) (tl data)) eqn:St; [|apply ret_inv in H; destruct H as [_ ->]; exact Hi].
  apply strn_hd in St. revert H. apply keeps_silent; auto. left. unfold in_use. apply negb_true_iff, N.eqb_neq. rewrite <- St.
  unfold byte_at in Hb. destruct data as [|x [|y data]]; auto.
Qed.
Lemma plain_keeps o : plain E o -> op_keeps E TxI o.
Proof.
  intro Po. destruct o; cbn [plain op_keeps] in *; try exact I; auto.
  - intro Hs. destruct (Po Hs) as (P1 & P2 & P3). unfold sys_keeps. change (b data 0) with (byte_at data 0). unfold cmd_of.
    repeat match goal with |- context [if byte_at data 0 =? ?k then _ else _] => destruct (N.eqb_spec (byte_at data 0) k); [cbv iota|] end; try exact I; try congruence.
    + split; [intro|]; apply keeps_same; [apply tx_set_node_mode|apply tx_set_baudrate].
    + intro. apply plain_sys_silent; auto.
    + intro. apply plain_sys_silent; auto.
  - apply TxI_add_module.
  - destruct Po as [Ht Hst]. intros s e s' W Hi H. unfold set_silent_awake_type_nr in H. mbind H as tab s0 H0. apply gets_inv in H0. destruct H0 as [-> ->].
    destruct (find_type_nr (tab_of s) type nr 0) as [p|] eqn:F; [|apply ret_inv in H; destruct H as [_ ->]; exact Hi].
    apply find_type_nr_spec in F. rewrite Nat.sub_0_r in F. destruct F as (F1 & F2 & F3). apply strn_hd in F2. revert H. apply keeps_silent; auto. left.
    unfold in_use. apply negb_true_iff, N.eqb_neq. unfold modat. rewrite F2. exact Ht.
  - destruct Po.
  - apply keeps_same. unfold change_type_add. pres_tac; tx_leaf.
  - intro s. apply TxI_same. repeat split.
  - intro s. apply TxI_same. repeat split.
  - apply keeps_same, tx_set_node_mode.
  - apply keeps_same, tx_set_baudrate.
  - destruct Po.
Qed.
Lemma TxI_step o : plain E o -> keeps E TxI (step E o).
Proof.
  intro Po. apply keeps_step; try (intros s x; apply TxI_same; repeat split). apply plain_keeps, Po.
Qed.
Lemma TxI_booted s : booted E s -> TxI s.
Proof.
  intros (mem & st & orc & rate & H). unfold can_init in H. apply andthen_inv in H. destruct H as (s1 & H1 & H).
  enough (TxI s1) as I1.
  { eapply TxI_same; [|exact I1]. revert H. assert (forall m, pres same_tx m -> forall (e:N) s1 s, m s1 = Ret (e, s) -> same_tx s1 s) as K by (intros; eauto).
    apply K. unfold define_obj, hw_define, msg_objs_init, sys_init, sync_init. pres_tac; tx_leaf. }
  unfold config_init in H1. minv_all. set (s1 := upd_cfg _ _). assert (forall p, in_use (modat s1 p) = false /\ m_ntx (modat s1 p) = 0%nat) as Hm.
  { intro p. unfold modat, tab_of, s1. cbn. rewrite map_map. destruct (Nat.lt_ge_cases p (MAXM E)) as [L|L].
    - rewrite nth_map_seq by exact L. split; reflexivity.
    - rewrite nth_overflow by (rewrite map_length, seq_length; exact L). split; reflexivity. }
  assert (forall p, ntx s1 p = 0%nat) as Hn by (intro; apply Hm). split.
  - split.
    + intros p o _ _. unfold cyclic. change (x_reg (n_tx s1)) with 0. rewrite N.bits_0, Hn. destruct (Nat.ltb_spec o 0); [lia|]. symmetry. apply andb_false_r.
    + intros n _. change (x_reg (n_tx s1)) with 0. apply N.bits_0.
    + intros p o _. rewrite Hn. lia.
    + intros p o _. rewrite Hn. lia.
  - intros p Lp _. split; [apply Hn|]. unfold awake, silat, s1. cbn. rewrite nth_repeat'; [reflexivity|exact Lp].
  - intros p q _ _. rewrite (proj1 (Hm q)). discriminate.
  - intros p Lp. unfold modat, tab_of, s1. cbn. rewrite map_map, nth_map_seq by exact Lp. cbn. unfold def_nr, NR_DEF. lia.
Qed.
(** operations one after the other *)
Lemma TxI_run ops : forall s s', Forall (plain E) ops -> WF E s -> TxI s -> run E ops s = Ret (tt, s') -> TxI s'.
Proof.
  induction ops as [|o ops IH]; intros s s' F W I H; cbn [run] in H; [apply ret_inv in H; destruct H as [_ ->]; exact I|].
  inversion F as [|? ? F1 F2]; subst. mbind H as u s1 H1. eapply IH; [exact F2| | |exact H]; [eapply wf_step; eauto | eapply TxI_step; eauto].
Qed.
Lemma TxI_reached ops s : Forall (plain E) ops -> reached E ops s -> TxI s.
Proof.
  intros F (s0 & B & R). eapply TxI_run; [exact F| |apply TxI_booted; exact B|exact R].
  apply (WF_reached E [] s0). exists s0. split; [exact B|reflexivity].
Qed.
End Tx.
