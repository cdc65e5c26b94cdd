(** No undefined access: an invariant that keeps every pointer, index and conversion of the node valid. *)
From Verif Require Import Words WordsFacts Bits ErrModel NodeModel NodeLib NodeInv NodeSpec NodeSafeSpec NodeHw NodeCnt NodePres NodeTx NodeSend NodeMo.

(** the error memory takes [n] more reports before the queue-full message *)
Definition store_room (n : nat) (st : errstore) : Prop :=
  match st with
  | EsSlot _ => True
  | EsQueue size q => (eq_count q + n + 2 <= size)%nat /\ (q_ready q = true -> length (q_slots q) = size /\ (q_in q < size)%nat /\ (q_out q < size)%nat)
  end.
Lemma store_room_le n m st : (m <= n)%nat -> store_room n st -> store_room m st.
Proof. destruct st; cbn; [|auto]. intros L [H1 H2]. split; [lia|auto]. Qed.
Lemma upd_some {A} (l : list A) i x : (i < length l)%nat -> exists l', Words.upd l i x = Some l' /\ length l' = length l.
Proof.
  revert i. induction l as [|y l IH]; intros [|i] H; cbn in *; try lia.
  - eexists. split; [reflexivity|]. reflexivity.
  - destruct (IH i ltac:(lia)) as (l' & -> & L). eexists. split; [reflexivity|]. cbn. lia.
Qed.
Lemma store_send n st e p nr : store_room (S n) st -> exists st' r, syserr_send st e p nr = Some (st', r) /\ store_room n st'.
Proof.
  unfold syserr_send, syserr_send_info. destruct st as [size q|sl]; cbn [store_room]; cbv zeta; unfold es_send.
  - intros [H1 H2]. unfold eq_send_full. cbv zeta. set (q1 := if q_ready q then q else eq_init size).
    assert (q_ready q1 = true /\ q_count q1 = eq_count q /\ length (q_slots q1) = size /\ (q_in q1 < size)%nat /\ (q_out q1 < size)%nat) as (A1 & A2 & A3 & A4 & A5).
    { unfold q1, eq_count. destruct (q_ready q) eqn:R; [|cbn; rewrite repeat_length; repeat split; lia]. destruct (H2 eq_refl) as (B1 & B2 & B3). auto. }
    clearbody q1. rewrite <- A2 in H1.
    destruct (p =? LVL_FATAL).
    { do 2 eexists. split; [reflexivity|]. cbn. unfold eq_count. rewrite A1. split; [lia|auto]. }
    destruct (Nat.ltb_spec size (q_count q1 + 2)); [lia|]. destruct (Nat.ltb_spec (q_count q1) size); [|lia].
    match goal with |- context [Words.upd (q_slots q1) (q_in q1) ?x] => destruct (upd_some (q_slots q1) (q_in q1) x) as (l' & -> & L) end; [lia|].
    destruct (Nat.eqb_spec size (q_count q1 + 2)); [lia|]. do 2 eexists. split; [reflexivity|]. unfold store_room, eq_count; cbn [q_ready q_count q_slots q_in q_out]. 
    split; [lia|]. intros _. split; [lia|]. split; [apply Nat.mod_upper_bound; lia|lia].
  - intros _. destruct (es_send_full _ _ _ _ _ _ _) as [s' r]. do 2 eexists. split; [reflexivity|exact I].
Qed.
Lemma store_get n st : store_room n st -> exists st' r, es_get st = Some (st', r) /\ store_room n st'.
Proof.
  destruct st as [size q|sl]; cbn [store_room es_get]; [|intros _; do 2 eexists; split; [reflexivity|exact I]].
  intros [H1 H2]. unfold eq_get_full. destruct (q_ready q) eqn:R; cbn [negb].
  2: { do 2 eexists. split; [reflexivity|]. cbn. rewrite R. split; [lia|congruence]. }
  unfold eq_count in H1. rewrite R in H1. destruct (H2 eq_refl) as (B1 & B2 & B3). destruct (Nat.eqb_spec (q_count q) 0).
  { do 2 eexists. split; [reflexivity|]. cbn. unfold eq_count. rewrite R. split; [lia|auto]. }
  destruct (nth_error (q_slots q) (q_out q)) as [x|] eqn:Nx; [|apply nth_error_None in Nx; lia].
  do 2 eexists. split; [reflexivity|]. cbn. split; [lia|]. intros _. split; [exact B1|]. split; [exact B2|]. apply Nat.mod_upper_bound. lia.
Qed.

(** partial correctness that excludes undefined behaviour; [n] bounds the reports made *)
Definition hoare {A} (P : node -> Prop) (n : nat) (m : M A) (Q : A -> node -> Prop) : Prop :=
  forall k s, P s -> store_room (n + k) (n_err s) ->
  match m s with Ret (a, s') => Q a s' /\ store_room k (n_err s') | Undef => False | Hang => True end.
Lemma h_ret {A} (P : node -> Prop) (a : A) (Q : A -> node -> Prop) : (forall s, P s -> Q a s) -> hoare P 0 (ret a) Q.
Proof. intros H k s Ps R. cbn. split; auto. Qed.
Lemma h_gets {A} (P : node -> Prop) (f : node -> A) (Q : A -> node -> Prop) : (forall s, P s -> Q (f s) s) -> hoare P 0 (gets f) Q.
Proof. intros H k s Ps R. cbn. split; auto. Qed.
Lemma h_modify (P : node -> Prop) f (Q : unit -> node -> Prop) : (forall s, P s -> Q tt (f s)) -> (forall s, n_err (f s) = n_err s) -> hoare P 0 (modify f) Q.
Proof. intros H He k s Ps R. cbn. rewrite He. split; auto. Qed.
Lemma h_bind {A B} (P : node -> Prop) n1 n2 (m : M A) (f : A -> M B) R Q : hoare P n1 m R -> (forall a, hoare (R a) n2 (f a) Q) -> hoare P (n1 + n2) (bind m f) Q.
Proof.
  intros H1 H2 k s Ps Rs. unfold bind. specialize (H1 (n2 + k)%nat s Ps). rewrite Nat.add_assoc in H1. specialize (H1 Rs).
  destruct (m s) as [[a s']| |]; auto. destruct H1 as [Ra Rs']. exact (H2 a k s' Ra Rs').
Qed.
Lemma h_cost {A} (P : node -> Prop) n n' (m : M A) Q : (n <= n')%nat -> hoare P n m Q -> hoare P n' m Q.
Proof. intros L H k s Ps Rs. apply H; auto. revert Rs. apply store_room_le. lia. Qed.
Lemma h_conseq {A} (P P' : node -> Prop) n (m : M A) (Q Q' : A -> node -> Prop) : (forall s, P s -> P' s) -> (forall a s, Q' a s -> Q a s) -> hoare P' n m Q' -> hoare P n m Q.
Proof. intros H1 H2 H k s Ps Rs. specialize (H k s (H1 s Ps) Rs). destruct (m s) as [[a s']| |]; auto. destruct H. auto. Qed.
Lemma h_pre {A} (P P' : node -> Prop) n (m : M A) (Q : A -> node -> Prop) : (forall s, P s -> P' s) -> hoare P' n m Q -> hoare P n m Q.
Proof. intros H. apply h_conseq; auto. Qed.
Lemma h_frame {A} (P X : node -> Prop) n (m : M A) Q (R : node -> node -> Prop) : hoare P n m Q -> pres R m -> (forall s s', R s s' -> X s -> X s') ->
  hoare (fun s => P s /\ X s) n m (fun a s => Q a s /\ X s).
Proof.
  intros H Hp Hx k s [Ps Xs] Rs. specialize (H k s Ps Rs). destruct (m s) as [[a s']| |] eqn:Em; auto. destruct H as [Qa Rk]. split; [|exact Rk].
  split; [exact Qa|]. eapply Hx; [eapply Hp, Em|exact Xs].
Qed.
(** fix the start state *)
Lemma h_at {A} (P : node -> Prop) n (m : M A) Q : (forall s0, P s0 -> hoare (fun s => s = s0) n m Q) -> hoare P n m Q.
Proof. intros H k s Ps Rs. exact (H s Ps k s eq_refl Rs). Qed.
Lemma h_run {A} (P : node -> Prop) (m : M A) (Q : A -> node -> Prop) : (forall s, P s -> match m s with Ret (a, s') => Q a s' /\ n_err s' = n_err s | Undef => False | Hang => True end) -> hoare P 0 m Q.
Proof. intros H k s Ps Rs. specialize (H s Ps). destruct (m s) as [[a s']| |]; auto. destruct H as [H1 H2]. rewrite H2. auto. Qed.
Lemma h_report (P : node -> Prop) e p nr (Q : unit -> node -> Prop) : (forall s st, P s -> Q tt (set_n_err s st)) -> hoare P 1 (report e p nr) Q.
Proof.
  intros H k s Ps Rs. unfold report. destruct (store_send k (n_err s) e p nr Rs) as (st & r & -> & Rk). split; [apply H, Ps|exact Rk].
Qed.
Lemma h_for_err (P : node -> Prop) n i f : (forall j, (i <= j < i + n)%nat -> hoare P 0 (f j) (fun _ => P)) -> hoare P 0 (for_err n i f) (fun _ => P).
Proof.
  revert i. induction n as [|n IH]; intros i H; cbn [for_err]; [apply h_ret; auto|].
  apply (h_bind _ 0 0 _ _ (fun _ => P)); [apply H; lia|]. intro e. destruct (e =? ERR_OK); [apply IH; intros; apply H; lia|apply h_ret; auto].
Qed.
Lemma h_for_do (P : node -> Prop) n i f : (forall j, (i <= j < i + n)%nat -> hoare P 0 (f j) (fun _ => P)) -> hoare P 0 (for_do n i f) (fun _ => P).
Proof.
  revert i. induction n as [|n IH]; intros i H; cbn [for_do]; [apply h_ret; auto|].
  apply (h_bind _ 0 0 _ _ (fun _ => P)); [apply H; lia|]. intros _. apply IH. intros; apply H; lia.
Qed.
Lemma h_then (P R : node -> Prop) m1 m2 (Q : N -> node -> Prop) : hoare P 0 m1 (fun e s => (e = ERR_OK -> R s) /\ (e <> ERR_OK -> Q e s)) -> hoare R 0 m2 Q -> hoare P 0 (m1 >>> m2) Q.
Proof.
  intros H1 H2. unfold andthen. apply (h_bind _ 0 0 _ _ _ _ H1). intro e. destruct (N.eqb_spec e ERR_OK) as [->|Ne].
  - eapply h_pre; [|exact H2]. intros s [H _]. auto.
  - apply h_ret. intros s [_ H]. auto.
Qed.
Lemma h_then0 (P : node -> Prop) m1 m2 (Q : N -> node -> Prop) : hoare P 0 m1 (fun _ => P) -> hoare P 0 m2 Q -> (forall e s, P s -> Q e s) -> hoare P 0 (m1 >>> m2) Q.
Proof. intros H1 H2 H3. apply h_then with (R := P); auto. eapply h_conseq; [| |exact H1]; cbn; auto. Qed.

(** ** the invariant *)
Section Safe.
Variable E : env.
Hypothesis HE : env_ok E.
(** sizes of the application's objects *)
Variable sizes : list nat.

Record SI (x : option (nat * nat)) (s : node) : Prop := {
  si_mem : map (@length byte) (n_mem s) = sizes;
  si_nrx : forall p, (m_nrx (modat s p) <= NOBJ)%nat /\ (m_ntx (modat s p) <= NOBJ)%nat;
  si_rx : forall p i, (i < m_nrx (modat s p))%nat -> rx_fits sizes (rxat (modat s p) i);
  si_tx : forall p i, (i < m_ntx (modat s p))%nat -> tx_fits sizes (txat (modat s p) i);
  si_free : forall p, in_use (modat s p) = false -> m_nrx (modat s p) = 0%nat /\ m_ntx (modat s p) = 0%nat;
  si_chg : forall p c, nth p (k_chg (n_cfg s)) None = Some c -> change_fits sizes (c_desc c) (c_rx c) (c_tx c);
  si_len : length (h_used (n_hw s)) = NMSG E /\ length (h_filt (n_hw s)) = NMSG E;
  si_hw : HwI E s;
  si_mo : forall p i, (i < NOBJ)%nat -> x = Some (p, i) \/ rx_mo s p i = 0%nat \/ used s (rx_mo s p i) = true;
  si_link : forall mo p, registered s mo p -> exists i, (i < NOBJ)%nat /\ in_use (modat s p) = true /\ rx_fits sizes (rxat (modat s p) i) /\
    (forall f m, filt s mo = Some (f, m) -> m = MASK_ONE /\ N.to_nat (f mod 4) = i) /\
    (forall q j, (j < NOBJ)%nat -> rx_mo s q j = mo -> j = i);
  si_bits : forall n, N.testbit (x_reg (n_tx s)) (N.of_nat n) = true -> (n / 4 < MAXM E)%nat /\ (n mod 4 < m_ntx (modat s (n / 4)))%nat;
  si_dlc : forall p o, get2 (x_dlc (n_tx s)) p o <= 8
}.

(** changes of a module that do not disturb the invariant *)
Record mild (m m' : modl) : Prop := {
  mi_nrx : m_nrx m' = m_nrx m; mi_ntx : m_ntx m' = m_ntx m; mi_use : in_use m' = in_use m;
  mi_mo : forall i, r_mo (rxat m' i) = r_mo (rxat m i);
  mi_rx : forall i, rx_fits sizes (rxat m i) -> rx_fits sizes (rxat m' i);
  mi_tx : forall i, tx_fits sizes (txat m i) -> tx_fits sizes (txat m' i)
}.
Lemma mild_refl m : mild m m.
Proof. split; auto. Qed.
Lemma SI_mild x s s' : (forall p, mild (modat s p) (modat s' p)) -> map (@length byte) (n_mem s') = map (@length byte) (n_mem s) -> k_chg (n_cfg s') = k_chg (n_cfg s) ->
  h_used (n_hw s') = h_used (n_hw s) -> h_filt (n_hw s') = h_filt (n_hw s) -> h_rxtab (n_hw s') = h_rxtab (n_hw s) ->
  (forall n, N.testbit (x_reg (n_tx s')) n = true -> N.testbit (x_reg (n_tx s)) n = true) -> x_dlc (n_tx s') = x_dlc (n_tx s) -> SI x s -> SI x s'.
Proof.
  intros Hm H1 H2 H3 H4 H5 H6 H7 []. assert (forall p i, rx_mo s' p i = rx_mo s p i) as Hmo by (intros; apply (mi_mo _ _ (Hm p))).
  split.
  - congruence.
  - intro p. rewrite (mi_nrx _ _ (Hm p)), (mi_ntx _ _ (Hm p)). auto.
  - intros p i. rewrite (mi_nrx _ _ (Hm p)). intro L. apply (mi_rx _ _ (Hm p)). auto.
  - intros p i. rewrite (mi_ntx _ _ (Hm p)). intro L. apply (mi_tx _ _ (Hm p)). auto.
  - intro p. rewrite (mi_nrx _ _ (Hm p)), (mi_ntx _ _ (Hm p)), (mi_use _ _ (Hm p)). auto.
  - intros p c. rewrite H2. apply si_chg0.
  - rewrite H3, H4. auto.
  - unfold HwI, used. rewrite H3, H5. exact si_hw0.
  - intros p i L. rewrite Hmo. unfold used. rewrite H3. exact (si_mo0 p i L).
  - intros mo p Hr. unfold registered in Hr. rewrite H5 in Hr. destruct (si_link0 mo p Hr) as (i & L1 & L2 & L3 & L4 & L5). exists i.
    split; [exact L1|]. split; [rewrite (mi_use _ _ (Hm p)); exact L2|]. split; [apply (mi_rx _ _ (Hm p)), L3|]. split; [unfold filt; rewrite H4; exact L4|].
    intros q j Lj. rewrite Hmo. apply L5; assumption.
  - intros n Hn. apply H6, si_bits0 in Hn. rewrite (mi_ntx _ _ (Hm _)). exact Hn.
  - intros p o. rewrite H7. auto.
Qed.
Lemma SI_keep x s s' : k_tab (n_cfg s') = k_tab (n_cfg s) -> map (@length byte) (n_mem s') = map (@length byte) (n_mem s) -> k_chg (n_cfg s') = k_chg (n_cfg s) ->
  h_used (n_hw s') = h_used (n_hw s) -> h_filt (n_hw s') = h_filt (n_hw s) -> h_rxtab (n_hw s') = h_rxtab (n_hw s) ->
  n_tx s' = n_tx s -> SI x s -> SI x s'.
Proof.
  intros H1 H2 H3 H4 H5 H6 H7. apply SI_mild; auto; try congruence. intro p. unfold modat, tab_of. rewrite H1. apply mild_refl.
Qed.
Lemma modat_upd_any pos f s p : modat (upd_mod pos f s) p = if (p =? pos)%nat && (pos <? length (tab_of s))%nat then f (modat s pos) else modat s p.
Proof.
  unfold modat, tab_of, upd_mod. cbn. destruct (Nat.eqb_spec p pos) as [->|Np]; cbn [andb].
  - destruct (Nat.ltb_spec pos (length (k_tab (n_cfg s)))); [apply nth_set_nth_same; assumption|rewrite set_nth_beyond by assumption; reflexivity].
  - apply nth_set_nth_other. congruence.
Qed.
Lemma SI_upd x pos f s : (forall m, (in_use m = false -> m_nrx m = 0%nat /\ m_ntx m = 0%nat) -> mild m (f m)) -> SI x s -> SI x (upd_mod pos f s).
Proof.
  intros Hf H. revert H. intro H. pose proof H as H0. revert H. apply SI_mild; try reflexivity; auto. intro p. rewrite modat_upd_any. destruct (_ && _) eqn:C; [|apply mild_refl].
  apply andb_prop in C. destruct C as [C _]. apply Nat.eqb_eq in C. subst p. apply Hf. apply (si_free _ _ H0).
Qed.
Lemma nth_set_nth_or {A} (l : list A) i x j d : nth j (set_nth l i x) d = x \/ nth j (set_nth l i x) d = nth j l d.
Proof.
  destruct (Nat.eq_dec i j) as [->|N]; [|right; apply nth_set_nth_other; exact N].
  destruct (Nat.lt_ge_cases j (length l)); [left; apply nth_set_nth_same; assumption|right; rewrite set_nth_beyond by assumption; reflexivity].
Qed.
Lemma rxat_upd i f m j : rxat (upd_rx i f m) j = rxat m j \/ (j = i /\ rxat (upd_rx i f m) j = f (rxat m i)).
Proof.
  unfold rxat, upd_rx. cbn [m_rx set_m_rx]. destruct (Nat.eq_dec i j) as [->|N]; [|left; apply nth_set_nth_other; exact N].
  destruct (nth_set_nth_or (m_rx m) j (f (nth j (m_rx m) rxo0)) j rxo0); auto.
Qed.
Lemma txat_upd i f m j : txat (upd_txo i f m) j = txat m j \/ (j = i /\ txat (upd_txo i f m) j = f (txat m i)).
Proof.
  unfold txat, upd_txo. cbn [m_tx set_m_tx]. destruct (Nat.eq_dec i j) as [->|N]; [|left; apply nth_set_nth_other; exact N].
  destruct (nth_set_nth_or (m_tx m) j (f (nth j (m_tx m) txo0)) j txo0); auto.
Qed.
Lemma mild_rx i f m : (forall o, r_mo (f o) = r_mo o) -> (forall o, rx_fits sizes o -> rx_fits sizes (f o)) -> mild m (upd_rx i f m).
Proof.
  intros H1 H2. split; try reflexivity; auto.
  - intro j. destruct (rxat_upd i f m j) as [->|[-> ->]]; auto.
  - intros j Hj. destruct (rxat_upd i f m j) as [->|[-> ->]]; auto.
Qed.
Lemma mild_tx i f m : (forall o, tx_fits sizes o -> tx_fits sizes (f o)) -> mild m (upd_txo i f m).
Proof.
  intros H2. split; try reflexivity; auto. intros j Hj. destruct (txat_upd i f m j) as [->|[-> ->]]; auto.
Qed.
Lemma rx_dummy_ok : ~ resizes rx_dummy.
Proof. intros (can & app & dlc & H). apply H. reflexivity. Qed.
Lemma mild_rx_off i m : mild m (upd_rx i (fun o => set_r_conv_s (set_r_dlc_s o 0) (Some rx_dummy)) m).
Proof. apply mild_rx; [reflexivity|]. intros o (H1 & H2 & H3 & H4). repeat split; auto. exists rx_dummy. split; [reflexivity|apply rx_dummy_ok]. Qed.
Lemma mild_rx_on i m : mild m (upd_rx i (fun o => set_r_conv_s (set_r_dlc_s o (r_dlc o)) (r_conv o)) m).
Proof. apply mild_rx; [reflexivity|]. intros o (H1 & H2 & H3 & H4). repeat split; auto. Qed.
Lemma mild_rx_dlc i m : mild m (upd_rx i (fun o => set_r_dlc_s o (r_dlc o)) m).
Proof. apply mild_rx; [reflexivity|]. intros o (H1 & H2 & H3 & H4). repeat split; auto. Qed.
Lemma mild_tx_off i m : mild m (upd_txo i (fun o => set_t_conv_s (set_t_dlc_s o 0) (Some tx_dummy)) m).
Proof. apply mild_tx. intros o (H1 & H2 & H3 & H4). repeat split; auto. discriminate. Qed.
Lemma mild_tx_on i m : mild m (upd_txo i (fun o => set_t_conv_s (set_t_dlc_s o (t_dlc o)) (t_conv o)) m).
Proof. apply mild_tx. intros o (H1 & H2 & H3 & H4). repeat split; auto. Qed.
Lemma mild_tx_dlc i m : mild m (upd_txo i (fun o => set_t_dlc_s o (t_dlc o)) m).
Proof. apply mild_tx. intros o (H1 & H2 & H3 & H4). repeat split; auto. Qed.
Lemma mild_same m m' : m_type m' = m_type m -> m_nrx m' = m_nrx m -> m_ntx m' = m_ntx m -> m_rx m' = m_rx m -> m_tx m' = m_tx m -> mild m m'.
Proof. intros H1 H2 H3 H4 H5. split; auto; unfold in_use, rxat, txat; rewrite ?H1, ?H4, ?H5; auto. Qed.
Ltac mild_leaf := first [apply mild_rx_off | apply mild_rx_on | apply mild_rx_dlc | apply mild_tx_off | apply mild_tx_on | apply mild_tx_dlc | apply mild_same; reflexivity].

(** ** hardware *)
Lemma h_call_rx x f can addr dlc : (exists g, f = Some g /\ ~ resizes g) -> (addr < length sizes)%nat -> hoare (SI x) 0 (call_rx f can addr dlc) (fun _ => SI x).
Proof.
  intros (g & -> & Hg) La. apply h_run. intros s I. unfold call_rx, bind, gets. destruct (nth_error (n_mem s) addr) as [app|] eqn:Ea.
  - destruct (g can app dlc) as [app' e] eqn:Eg. cbn. split; [|reflexivity].
    assert (length app' = length app) as L. { destruct (Nat.eq_dec (length app') (length app)) as [e0|n]; [exact e0|]. exfalso. apply Hg. exists can, app, dlc. rewrite Eg. exact n. }
    revert I. apply SI_keep; try reflexivity. cbn. rewrite map_set_nth, L. clear - Ea. revert addr Ea. induction (n_mem s) as [|a l IH]; intros [|i] H; cbn in *; auto; [congruence|f_equal; auto].
  - apply nth_error_None in Ea. rewrite <- (si_mem _ _ I), map_length in La. lia.
Qed.
(** definition of a message object: an unregistered one, or a registered one with the index of its owner *)
Definition may_define (s : node) (mo : nat) (id mask : N) (rx : bool) : Prop :=
  (mo < NMSG E)%nat /\ ((forall p, ~ registered s mo p) \/ (rx = true /\ mask = MASK_ONE /\ exists q j, (j < NOBJ)%nat /\ rx_mo s q j = mo /\ N.to_nat (id mod 4) = j)).
Lemma SI_define x mo id mask rx s s' : SI x s -> may_define s mo id mask rx -> n_cfg s' = n_cfg s -> n_tx s' = n_tx s -> n_mem s' = n_mem s ->
  h_rxtab (n_hw s') = h_rxtab (n_hw s) -> (h_used (n_hw s') = set_nth (h_used (n_hw s)) mo true \/ h_used (n_hw s') = h_used (n_hw s)) ->
  (h_filt (n_hw s') = set_nth (h_filt (n_hw s)) mo (if rx then Some (id, mask) else None) \/ h_filt (n_hw s') = h_filt (n_hw s)) -> SI x s'.
Proof.
  intros [] [Lm Hm] Hc Ht Hme Hr Hu Hf. assert (forall p, modat s' p = modat s p) as Mo by (intro; unfold modat, tab_of; rewrite Hc; reflexivity).
  assert (forall k, used s k = true -> used s' k = true) as Ug by (intros k; unfold used; destruct Hu as [->| ->]; auto; apply set_nth_true_grow).
  assert (forall p i, rx_mo s' p i = rx_mo s p i) as Hmo by (intros; unfold rx_mo; rewrite Mo; reflexivity).
  split.
  - rewrite Hme. assumption.
  - intro p. rewrite Mo. auto.
  - intro p. rewrite Mo. auto.
  - intro p. rewrite Mo. auto.
  - intro p. rewrite Mo. auto.
  - rewrite Hc. apply si_chg0.
  - destruct Hu as [->| ->], Hf as [->| ->]; rewrite ?set_nth_length; auto.
  - apply (grows_HwR E s); [|exact si_hw0]. split; [exact Ug|exact Hr].
  - intros p i L. rewrite Hmo. destruct (si_mo0 p i L) as [H|[H|H]]; auto.
  - intros k p Hk. unfold registered in Hk. rewrite Hr in Hk. destruct (si_link0 k p Hk) as (i & L1 & L2 & L3 & L4 & L5). exists i. rewrite Mo.
    split; [exact L1|]. split; [exact L2|]. split; [exact L3|]. split; [|intros q j Lj; rewrite Hmo; apply L5; exact Lj].
    intros f m. unfold filt. destruct Hf as [->| ->]; [|apply L4]. destruct (Nat.eq_dec mo k) as [->|Nk]; [|rewrite nth_set_nth_other by exact Nk; apply L4].
    destruct Hm as [Hm|(-> & -> & q & j & Lj & Rj & Ij)]; [exfalso; exact (Hm p Hk)|]. destruct si_len0 as [_ Lf]. rewrite nth_set_nth_same by lia. intro Q. injection Q as <- <-.
    split; [reflexivity|]. rewrite Ij. eapply L5; eauto.
  - intros n. rewrite Ht, Mo. apply si_bits0.
  - rewrite Ht. apply si_dlc0.
Qed.
Lemma define_cases mo id mask dlc rx sv sy s : (mo < NMSG E)%nat ->
  match define_obj E mo id mask dlc rx sv sy s with
  | Ret (e, s') => n_cfg s' = n_cfg s /\ n_tx s' = n_tx s /\ n_mem s' = n_mem s /\ n_err s' = n_err s /\ h_rxtab (n_hw s') = h_rxtab (n_hw s) /\
      (h_used (n_hw s') = set_nth (h_used (n_hw s)) mo true \/ h_used (n_hw s') = h_used (n_hw s) /\ (2047 < id \/ 8 < u8 dlc)) /\
      (h_filt (n_hw s') = set_nth (h_filt (n_hw s)) mo (if rx then Some (id, mask) else None) \/ h_filt (n_hw s') = h_filt (n_hw s) /\ e <> ERR_OK)
  | _ => False
  end.
Proof.
  intro Lm. unfold define_obj. assert ((mo <? NMSG E)%nat = true) as Eb by (apply Nat.ltb_lt; exact Lm). rewrite Eb. cbn [negb]. rewrite andb_false_r.
  destruct (CHKDEF E && (2047 <? id)) eqn:C1. { cbn. apply andb_prop in C1. destruct C1 as [_ C1]. apply N.ltb_lt in C1. repeat split; auto. right. split; [reflexivity|discriminate]. }
  destruct (CHKDEF E && (8 <? u8 dlc)) eqn:C2. { cbn. apply andb_prop in C2. destruct C2 as [_ C2]. apply N.ltb_lt in C2. repeat split; auto. right. split; [reflexivity|discriminate]. }
  unfold andthen, hw_define, bind, guard. rewrite Eb. cbn [ret modify]. unfold ask. cbn [upd_hw set_n_hw n_orc].
  destruct (n_orc s) as [|[] r].
  - cbn. destruct sv; try destruct sy; cbn; repeat split; auto.
  - cbn. destruct sv; try destruct sy; cbn; repeat split; auto.
  - cbn. repeat split; auto. right. split; [reflexivity|discriminate].
Qed.
(** [X]: facts about configuration and registrations that a definition leaves alone *)
Definition hw_free (X : node -> Prop) : Prop := forall s s', n_cfg s' = n_cfg s -> n_tx s' = n_tx s -> h_rxtab (n_hw s') = h_rxtab (n_hw s) -> X s -> X s'.
Lemma h_define x (X : node -> Prop) mo id mask dlc rx sv sy : hw_free X ->
  hoare (fun s => SI x s /\ X s /\ may_define s mo id mask rx) 0 (define_obj E mo id mask dlc rx sv sy) (fun _ s => SI x s /\ X s).
Proof.
  intros HX. apply h_run. intros s (I & Xs & Md). pose proof (define_cases mo id mask dlc rx sv sy s (proj1 Md)) as H.
  destruct (define_obj _ _ _ _ _ _ _ _ s) as [[e s']| |]; auto. destruct H as (H1 & H2 & H3 & H4 & H5 & H6 & H7). split; [|exact H4]. split; [|eapply HX; eauto].
  eapply SI_define; eauto; tauto.
Qed.
Lemma reserved_unreg s r : HwI E s -> In r (reserved E) -> forall p, ~ registered s r p.
Proof. intros (_ & H & _) Hr p Hp. apply (in_map fst) in Hp. apply H in Hp. tauto. Qed.
Lemma h_define_res x (X : node -> Prop) mo id mask dlc rx sv sy : hw_free X -> In mo (reserved E) ->
  hoare (fun s => SI x s /\ X s) 0 (define_obj E mo id mask dlc rx sv sy) (fun _ s => SI x s /\ X s).
Proof.
  intros HX Hr. eapply h_pre; [|apply h_define, HX]. cbn. intros s [I Xs]. split; [exact I|]. split; [exact Xs|]. split.
  - destruct HE as (_ & Hn & _). unfold reserved in Hr. cbn in Hr. unfold MO_PROCESS, MO_SYS1, MO_TX, MO_SYS2, MO_ASYNC_DATA in Hr.
    repeat (destruct Hr as [Hr|Hr]; [lia|]). apply in_app_or in Hr. destruct Hr as [Hr|Hr]; [destruct (SYS2 E)|destruct (ASY E)]; cbn in Hr; lia.
  - left. apply reserved_unreg; [apply I|exact Hr].
Qed.
Lemma unused_unreg s mo : HwI E s -> used s mo = false -> forall p, ~ registered s mo p.
Proof. intros (_ & H & _) Hu p Hp. apply (in_map fst) in Hp. apply H in Hp. cbn in Hp. destruct Hp. congruence. Qed.

(** ** silent and awake *)
Lemma SI_tx x s s' : n_cfg s' = n_cfg s -> n_hw s' = n_hw s -> n_mem s' = n_mem s ->
  (forall n, N.testbit (x_reg (n_tx s')) (N.of_nat n) = true -> N.testbit (x_reg (n_tx s)) (N.of_nat n) = true \/ (n / 4 < MAXM E)%nat /\ (n mod 4 < m_ntx (modat s (n / 4)))%nat) ->
  (forall p o, get2 (x_dlc (n_tx s')) p o <= 8) -> SI x s -> SI x s'.
Proof.
  intros H1 H2 H3 H4 H5 []. assert (forall p, modat s' p = modat s p) as Mo by (intro; unfold modat, tab_of; rewrite H1; reflexivity).
  assert (forall p i, rx_mo s' p i = rx_mo s p i) as Hmo by (intros; unfold rx_mo; rewrite Mo; reflexivity).
  split.
  - rewrite H3. assumption.
  - intro p. rewrite Mo. auto.
  - intro p. rewrite Mo. auto.
  - intro p. rewrite Mo. auto.
  - intro p. rewrite Mo. auto.
  - rewrite H1. assumption.
  - rewrite H2. assumption.
  - unfold HwI, used. rewrite H2. assumption.
  - intros p i. unfold used. rewrite Hmo, H2. apply si_mo0.
  - intros mo p. unfold registered, filt. rewrite H2, Mo. intro Hr. destruct (si_link0 mo p Hr) as (i & L1 & L2 & L3 & L4 & L5). exists i.
    split; [exact L1|]. split; [exact L2|]. split; [exact L3|]. split; [exact L4|]. intros q j. rewrite Hmo. apply L5.
  - intros n Hn. rewrite Mo. destruct (H4 n Hn) as [H|H]; auto.
  - exact H5.
Qed.
Definition nums (pos : nat) (m : modl) (s : node) : Prop := m_ntx (modat s pos) = m_ntx m /\ m_nrx (modat s pos) = m_nrx m.
Lemma h_upd x pos m f : (forall m, mild m (f m)) -> hoare (fun s => SI x s /\ nums pos m s) 0 (modify (upd_mod pos f)) (fun _ s => SI x s /\ nums pos m s).
Proof.
  intro Hf. apply h_modify; [|reflexivity]. intros s [I [N1 N2]]. split; [apply SI_upd; auto|]. unfold nums. rewrite modat_upd_any.
  destruct (_ && _); [|auto]. rewrite (mi_nrx _ _ (Hf _)), (mi_ntx _ _ (Hf _)). auto.
Qed.
Lemma h_sync_off x pos : hoare (SI x) 0 (sync_off pos) (fun _ => SI x).
Proof.
  unfold sync_off. apply (h_bind _ 0 0 _ _ (fun m s => SI x s /\ nums pos m s)); [apply h_gets; intros s I; split; [exact I|split; reflexivity]|]. intro m.
  set (P := fun s => SI x s /\ nums pos m s).
  apply (h_bind _ 0 0 _ _ (fun _ => P)); [apply h_upd; intro; mild_leaf|]. intros _.
  apply (h_bind _ 0 0 _ _ (fun _ => P)).
  { apply h_for_do. intros j Lj. apply (h_bind _ 0 0 _ _ (fun _ => P)); [|intros _; apply h_upd; intro; mild_leaf].
    apply h_modify; [|reflexivity]. intros s [I N1]. split; [|exact N1]. revert I. apply SI_mild; try reflexivity; [intro; apply mild_refl|].
    intro n. cbn. rewrite N.ldiff_spec. intro Q. apply andb_prop in Q. apply Q. }
  intros _. apply (h_bind _ 0 0 _ _ (fun _ => P)); [apply h_upd; intro; mild_leaf|]. intros _.
  apply (h_bind _ 0 0 _ _ (fun _ => P)). { apply h_for_do. intros j Lj. apply h_upd; intro; mild_leaf. }
  intros _. apply (h_conseq _ P _ _ _ (fun _ => P)); [auto|intros _ s [I _]; exact I|]. apply h_for_do. intros j Lj.
  apply (h_bind _ 0 0 _ _ (fun o s => P s /\ rx_fits sizes o)). { apply h_gets. intros s [I [N1 N2]]. split; [split; [exact I|split; assumption]|]. apply (si_rx _ _ I). lia. }
  intro o. apply h_at. intros s0 [[I0 N0] F]. destruct F as (F1 & F2 & F3 & _).
  apply (h_bind _ 0 0 _ _ (fun _ => P)); [|intros _; apply h_ret; auto].
  apply (h_pre _ P); [intros s ->; split; assumption|]. eapply h_frame with (R := fun s s' => n_cfg s' = n_cfg s).
  - apply h_call_rx; assumption.
  - intros s e s' H. unfold call_rx in H. destruct (r_conv o); [|discriminate]. mbind H as mem s1 H1. apply gets_inv in H1. destruct H1 as [-> ->].
    destruct (nth_error (n_mem s) (r_addr o)); [|discriminate]. destruct (r _ _ _). mbind H as u s1 H1. apply modify_inv in H1. apply ret_inv in H. destruct H as [_ ->]. subst s1. reflexivity.
  - intros s s' Hc. unfold nums, modat, tab_of. rewrite Hc. auto.
Qed.
Lemma pos_lt pos i : (pos < MAXM E)%nat -> (i < NOBJ)%nat -> (NOBJ * pos + i < 32)%nat.
Proof. destruct HE as [H _]. unfold NOBJ. lia. Qed.
Lemma h_sync_on x pos : (pos < MAXM E)%nat -> hoare (SI x) 0 (sync_on pos) (fun _ => SI x).
Proof.
  intro Lp. unfold sync_on. apply (h_bind _ 0 0 _ _ (fun m s => SI x s /\ nums pos m s)); [apply h_gets; intros s I; split; [exact I|split; reflexivity]|]. intro m.
  set (P := fun s => SI x s /\ nums pos m s).
  apply (h_bind _ 0 0 _ _ (fun _ => P)); [apply h_upd; intro; mild_leaf|]. intros _.
  apply (h_bind _ 0 0 _ _ (fun _ => P)).
  { apply h_for_do. intros j Lj. apply (h_bind _ 0 0 _ _ (fun _ => P)); [|intros _; apply h_upd; intro; mild_leaf].
    apply h_modify; [|reflexivity]. intros s [I [N1 N2]]. split; [|split; assumption]. pose proof (si_nrx _ _ I pos) as [_ Ln]. pose proof (si_dlc _ _ I) as D. revert I. apply SI_tx; try reflexivity; [|exact D].
    intros n. cbn [upd_tx set_n_tx n_tx x_reg set_x_reg]. rewrite N.lor_spec, txbit_test by (apply pos_lt; lia). intro Q. apply orb_prop in Q. destruct Q as [Q|Q]; [auto|]. right.
    apply Nat.eqb_eq in Q. subst n. unfold NOBJ in *. replace ((4 * pos + j) / 4)%nat with pos by lia. replace ((4 * pos + j) mod 4)%nat with j by lia. split; [exact Lp|lia]. }
  intros _. apply (h_bind _ 0 0 _ _ (fun _ => P)); [apply h_upd; intro; mild_leaf|]. intros _.
  apply (h_conseq _ P _ _ _ (fun _ => P)); [auto|intros _ s [I _]; exact I|]. apply h_for_do. intros j Lj. apply h_upd. intro; mild_leaf.
Qed.
Lemma h_emit_cb (P : node -> Prop) cb f : (forall s e, P s -> P (set_n_log s (n_log s ++ [e]))) -> hoare P 0 (emit_cb cb f) (fun _ => P).
Proof. intro H. destruct cb; cbn [emit_cb]; [apply h_modify; [intros; apply H; assumption|reflexivity]|apply h_ret; auto]. Qed.
Ltac si_keep := match goal with |- SI ?x ?s' => (match goal with H : SI x _ |- _ => revert H; apply SI_keep; reflexivity end) end.
Lemma h_set_silent x pos st : hoare (SI x) 0 (set_silent_awake E pos st) (fun _ => SI x).
Proof.
  unfold set_silent_awake. destruct (Nat.ltb_spec pos (MAXM E)) as [Lp|Lp]; [|apply h_ret; auto].
  apply (h_bind _ 0 0 _ _ (fun _ => SI x)); [apply h_modify; [intros; si_keep|reflexivity]|]. intros _.
  apply (h_bind _ 0 0 _ _ (fun _ => SI x)); [apply h_gets; auto|]. intro cb. apply (h_bind _ 0 0 _ _ (fun _ => SI x)); [apply h_gets; auto|]. intro m.
  apply (h_bind _ 0 0 _ _ (fun _ => SI x)); [apply h_emit_cb; intros; si_keep|]. intros _.
  destruct (st =? SILENT); [apply (h_bind _ 0 0 _ _ (fun _ => SI x)); [apply h_sync_off|intros _; apply h_ret; auto]|].
  destruct (st =? AWAKE); [apply (h_bind _ 0 0 _ _ (fun _ => SI x)); [apply h_sync_on, Lp|intros _; apply h_ret; auto]|apply h_ret; auto].
Qed.

(** ** configuration *)
Lemma free_any s mo : first_free (h_used (n_hw s)) 0 = Some mo -> used s mo = false /\ (mo < length (h_used (n_hw s)))%nat.
Proof. intro H. apply first_free_spec in H. rewrite Nat.sub_0_r in H. unfold used. tauto. Qed.
Lemma h_shared a pos nr mask : hoare (SI None) 0 (define_shared E a pos nr mask) (fun _ => SI None).
Proof.
  assert (forall mo id mask dlc rx sv sy, In mo (reserved E) -> hoare (SI None) 0 (define_obj E mo id mask dlc rx sv sy) (fun _ => SI None)) as Hd.
  { intros. apply (h_conseq _ (fun s => SI None s /\ True) _ _ _ (fun _ s => SI None s /\ True)); [auto|tauto|]. apply h_define_res; [|assumption]. intros s s' _ _ _ _. exact I. }
  assert (forall m Q, hoare (SI None) 0 m (fun _ => SI None) -> hoare (SI None) 0 Q (fun _ => SI None) -> hoare (SI None) 0 (m >>> Q) (fun _ => SI None)) as Ht.
  { intros m Q H1 H2. apply h_then0; auto. }
  unfold define_shared. apply Ht.
  - destruct (ASY E) eqn:As; [|apply h_ret; auto]. apply Ht.
    + apply (h_bind _ 0 0 _ _ (fun r s => SI None s /\ match fst r with Some mo => (mo < NMSG E)%nat /\ (forall p, ~ registered s mo p) | None => True end)).
      { unfold get_async_ctrl_obj. destruct (_ <=? _)%nat; [apply h_ret; cbn; auto|]. unfold next_free.
        apply (h_bind _ 0 0 _ _ (fun om s => SI None s /\ om = first_free (h_used (n_hw s)) 0)); [apply h_gets; auto|]. intros [mo|]; [|apply h_ret; cbn; tauto].
        apply (h_bind _ 0 0 _ _ (fun _ s => SI None s /\ ((mo < NMSG E)%nat /\ (forall p, ~ registered s mo p)))); [|intros _; apply h_ret; cbn; auto].
        apply h_modify; [|reflexivity]. intros s [I Hf]. symmetry in Hf. apply free_any in Hf. destruct Hf as [Hu Hl]. rewrite (proj1 (si_len _ _ I)) in Hl. pose proof (unused_unreg s mo (si_hw _ _ I) Hu) as Nr.
        split; [si_keep|]. split; [exact Hl|]. intros p. exact (Nr p). }
      intros [[mo|] e]; cbn [fst]; [|apply h_ret; tauto].
      apply (h_conseq _ (fun s => SI None s /\ True /\ may_define s mo (can_ident BASE_CTRL_RX nr 0) MASK_ONE true) _ _ _ (fun _ s => SI None s /\ True)); [|tauto|apply h_define; intros s s' _ _ _ _; exact I].
      intros s [I [Lm Hr]]. split; [exact I|]. split; [auto|]. split; [exact Lm|]. left. exact Hr.
    + apply Hd. unfold reserved. rewrite As. apply in_or_app. right. apply in_or_app. right. left. reflexivity.
  - apply Ht; [apply Hd; unfold reserved; cbn; auto|]. apply Ht.
    + destruct (SYS2 E) eqn:S2; [|apply h_ret; auto]. apply Hd. unfold reserved. rewrite S2. apply in_or_app. right. left. reflexivity.
    + apply (h_bind _ 0 0 _ _ (fun _ => SI None)); [apply h_gets; auto|]. intro st. apply h_set_silent.
Qed.
Definition tx_free (X : node -> Prop) : Prop := forall s s', n_cfg s' = n_cfg s -> n_hw s' = n_hw s -> X s -> X s'.
Lemma get2_set2_le l i j v p o : v <= 8 -> (forall p o, get2 l p o <= 8) -> get2 (set2 l i j v) p o <= 8.
Proof.
  intros Hv H. unfold get2, set2. destruct (nth_set_nth_or l i (set_nth (nth i l []) j v) p []) as [->| ->]; [|apply H].
  destruct (nth_set_nth_or (nth i l []) j v o 0) as [->| ->]; [exact Hv|apply H].
Qed.
Lemma h_tx_cnfg x (X : node -> Prop) pos obj nr : tx_free X -> (forall s, X s -> (obj < m_ntx (modat s pos))%nat) ->
  hoare (fun s => SI x s /\ X s) 0 (tx_data_cnfg E pos obj nr) (fun _ s => SI x s /\ X s).
Proof.
  intros HX Ho. apply h_run. intros s [I Xs]. unfold tx_data_cnfg. destruct (Nat.leb_spec (MAXM E) pos) as [Lp|Lp]; [cbn; auto|]. destruct (Nat.leb_spec NOBJ obj) as [Lo|Lo]; [cbn; auto|].
  cbn. split; [|reflexivity]. split; [|eapply HX; [| |exact Xs]; reflexivity]. pose proof (Ho s Xs) as L. pose proof (si_tx _ _ I pos obj L) as (_ & _ & D & _). pose proof (si_dlc _ _ I) as D0.
  revert I. apply SI_tx; try reflexivity; cbn [upd_tx set_n_tx n_tx x_reg x_dlc].
  - intro n. rewrite N.lor_spec, txbit_test by (apply pos_lt; assumption). intro Q. apply orb_prop in Q. destruct Q as [Q|Q]; [auto|]. right. apply Nat.eqb_eq in Q. subst n. unfold NOBJ in *.
    replace ((4 * pos + obj) / 4)%nat with pos by lia. replace ((4 * pos + obj) mod 4)%nat with obj by lia. split; [exact Lp|exact L].
  - intros p o. apply get2_set2_le; assumption.
Qed.

(** one receive object of a new module *)
Lemma SI_mo_set pos i mo s : SI None s -> used s mo = false -> SI (Some (pos, i)) (upd_mod pos (upd_rx i (fun o => set_r_mo o mo)) s).
Proof.
  intros I Hu. set (s' := upd_mod _ _ s).
  assert (forall p, m_nrx (modat s' p) = m_nrx (modat s p) /\ m_ntx (modat s' p) = m_ntx (modat s p) /\ in_use (modat s' p) = in_use (modat s p) /\
    (forall j, rx_fits sizes (rxat (modat s p) j) -> rx_fits sizes (rxat (modat s' p) j)) /\ (forall j, txat (modat s' p) j = txat (modat s p) j) /\
    (forall j, rx_mo s' p j = rx_mo s p j \/ p = pos /\ j = i /\ rx_mo s' p j = mo)) as Hm.
  { intro p. unfold rx_mo, s'. rewrite modat_upd_any. destruct (_ && _) eqn:C; [|split; [reflexivity|]; split; [reflexivity|]; split; [reflexivity|]; split; [auto|]; split; auto]. apply andb_prop in C. destruct C as [C _]. apply Nat.eqb_eq in C. subst p.
    split; [reflexivity|]. split; [reflexivity|]. split; [reflexivity|]. split; [|split; [reflexivity|]].
    - intros j Hj. destruct (rxat_upd i (fun o => set_r_mo o mo) (modat s pos) j) as [->|[-> ->]]; auto.
    - intro j. destruct (rxat_upd i (fun o => set_r_mo o mo) (modat s pos) j) as [->|[-> ->]]; [left; reflexivity|right; repeat split]. }
  pose proof I as []. split.
  - exact si_mem0.
  - intro p. destruct (Hm p) as (-> & -> & _). auto.
  - intros p j. destruct (Hm p) as (-> & _ & _ & Hr & _). intro L. apply Hr. auto.
  - intros p j. destruct (Hm p) as (_ & -> & _ & _ & Ht & _). rewrite Ht. auto.
  - intro p. destruct (Hm p) as (-> & -> & -> & _). auto.
  - exact si_chg0.
  - exact si_len0.
  - exact si_hw0.
  - intros p j L. destruct (Hm p) as (_ & _ & _ & _ & _ & Hr). destruct (Hr j) as [->|(-> & -> & _)]; [|auto]. destruct (si_mo0 p j L) as [Q|Q]; [discriminate|auto].
  - intros k p Hk. change (registered s k p) in Hk. destruct (si_link0 k p Hk) as (j & L1 & L2 & L3 & L4 & L5). exists j. destruct (Hm p) as (_ & _ & -> & Hr & _).
    split; [exact L1|]. split; [exact L2|]. split; [apply Hr, L3|]. split; [exact L4|]. intros q l Ll Q. destruct (Hm q) as (_ & _ & _ & _ & _ & Hq). destruct (Hq l) as [R|(-> & -> & R)].
    + rewrite R in Q. eapply L5; eauto.
    + exfalso. rewrite R in Q. subst k. exact (unused_unreg s mo si_hw0 Hu p Hk).
  - intros n Hn. destruct (Hm (n / 4)%nat) as (_ & -> & _). auto.
  - exact si_dlc0.
Qed.
Lemma SI_close p i s : SI (Some (p, i)) s -> rx_mo s p i = 0%nat \/ used s (rx_mo s p i) = true -> SI None s.
Proof.
  intros [] H. split; auto. intros q j L. destruct (si_mo0 q j L) as [Q|Q]; [|auto]. injection Q as <- <-. auto.
Qed.
Lemma SI_reg s mo pos i id : SI None s -> (i < NOBJ)%nat -> in_use (modat s pos) = true -> rx_fits sizes (rxat (modat s pos) i) -> used s mo = true -> ~ In mo (reserved E) ->
  (forall p, ~ registered s mo p) -> filt s mo = Some (id, MASK_ONE) -> N.to_nat (id mod 4) = i -> (forall q j, (j < NOBJ)%nat -> rx_mo s q j = mo -> j = i) ->
  SI None (upd_hw (fun h => set_h_rxtab h (h_rxtab h ++ [(mo, pos)])) s).
Proof.
  intros I Li Hu Hf Us Nr Nreg Fl Id On. pose proof I as []. set (s' := upd_hw _ s). split; try assumption.
  - destruct si_hw0 as (K1 & K2 & K3). unfold HwI. change (h_rxtab (n_hw s')) with (h_rxtab (n_hw s) ++ [(mo, pos)]). rewrite map_app. split; [exact K1|]. split.
    + intros k Hk. apply in_app_or in Hk. destruct Hk as [Hk|[<-|[]]]; [apply K2, Hk|]. split; [exact Us|exact Nr].
    + assert (~ In mo (map fst (h_rxtab (n_hw s)))) as Nin. { intro Q. apply in_map_iff in Q. destruct Q as ([a b] & Q1 & Q2). cbn in Q1. subst a. exact (Nreg b Q2). }
      clear - K3 Nin. induction (map fst (h_rxtab (n_hw s))) as [|y l IH]; cbn; [constructor; auto|]. inversion K3; subst. constructor.
      * rewrite in_app_iff. cbn. cbn in Nin. intuition.
      * apply IH; auto. intro. apply Nin. right. assumption.
  - intros k p Hk. apply in_app_or in Hk. destruct Hk as [Hk|[Hk|[]]]; [apply si_link0, Hk|]. injection Hk as <- <-. exists i.
    split; [exact Li|]. split; [exact Hu|]. split; [exact Hf|]. split; [|exact On]. intros f m Q. change (filt s mo = Some (f, m)) in Q. rewrite Fl in Q. injection Q as <- <-. auto.
Qed.
Lemma ident_mod base nr i : base mod 4 = 0 -> (i < 4)%nat -> N.to_nat (can_ident base nr i mod 4) = i.
Proof.
  intros Hb Hi. unfold can_ident, u16. assert (((base + (nr + 65535) * 4 + N.of_nat i) mod 65536) mod 4 = N.of_nat i) as ->; [|lia].
  pose proof (N.div_mod base 4). lia.
Qed.
Definition XS (pos : nat) (d : modl) (s : node) : Prop := in_use (modat s pos) = true /\ m_ntx (modat s pos) = m_ntx d /\ m_nrx (modat s pos) = m_nrx d.
Lemma XS_cfg pos d s s' : n_cfg s' = n_cfg s -> XS pos d s -> XS pos d s'.
Proof. intros H. unfold XS, modat, tab_of. rewrite H. auto. Qed.
Lemma XS_upd pos d p f s : (forall m, in_use (f m) = in_use m /\ m_ntx (f m) = m_ntx m /\ m_nrx (f m) = m_nrx m) -> XS pos d s -> XS pos d (upd_mod p f s).
Proof. intros H (H1 & H2 & H3). unfold XS. rewrite modat_upd_any. destruct (_ && _) eqn:C; [|auto]. apply andb_prop in C. destruct C as [C _]. apply Nat.eqb_eq in C. subst p. destruct (H (modat s pos)) as (-> & -> & ->). auto. Qed.
Lemma can_ident_small nr i : 2 <= nr <= 200 -> (i < 4)%nat -> can_ident BASE_RX nr i <= 2047.
Proof. intros H L. unfold can_ident, BASE_RX, u16. replace (512 + (nr + 65535) * 4 + N.of_nat i) with ((512 + (nr - 1) * 4 + N.of_nat i) + 4 * 65536) by lia. rewrite N.mod_add by lia. rewrite N.mod_small; lia. Qed.
Lemma h_rx_slot pos d nr i : (m_nrx d <= NOBJ)%nat -> (i < m_nrx d)%nat -> 2 <= nr <= 200 -> hoare (fun s => SI None s /\ XS pos d s) 0 (rx_slot E pos nr i) (fun _ s => SI None s /\ XS pos d s).
Proof.
  intros Ld Li Hn. unfold rx_slot. set (P := fun s => SI None s /\ XS pos d s).
  apply (h_bind _ 0 0 _ _ (fun _ => P)). { apply h_modify; [|reflexivity]. intros s [I X]. split; [apply SI_upd; [intros; mild_leaf|exact I]|apply XS_upd; [intro; repeat split|exact X]]. }
  intros _. unfold next_free. apply (h_bind _ 0 0 _ _ (fun om s => P s /\ om = first_free (h_used (n_hw s)) 0)); [apply h_gets; auto|]. intros [mo|]; [|apply h_ret; unfold P; tauto].
  set (id := can_ident BASE_RX nr i).
  set (F := fun s => XS pos d s /\ (forall p, ~ registered s mo p) /\ (forall q j, (j < NOBJ)%nat -> rx_mo s q j = mo -> j = i) /\ (forall q, rx_mo s q i = mo \/ rx_mo s q i <> mo) /\ (mo < NMSG E)%nat /\ ~ In mo (reserved E)).
  assert (forall s s', n_cfg s' = n_cfg s -> h_rxtab (n_hw s') = h_rxtab (n_hw s) -> F s -> F s') as HF.
  { intros s s' Hc Hr (F1 & F2 & F3 & F4 & F5). split; [eapply XS_cfg; eauto|]. unfold registered, rx_mo, modat, tab_of. rewrite Hc, Hr. auto. }
  assert (Hid : id <= 2047). { apply can_ident_small; [exact Hn|]. unfold NOBJ in *. lia. }
  apply (h_bind _ 0 0 _ _ (fun _ s => SI (Some (pos, i)) s /\ F s /\ used s mo = false /\ (rx_mo s pos i = mo \/ rx_mo s pos i = 0%nat \/ used s (rx_mo s pos i) = true) /\ (i < NOBJ)%nat)).
  { apply h_modify; [|reflexivity]. intros s [[I X] Hm]. symmetry in Hm. apply free_any in Hm. destruct Hm as [Hu Hl]. rewrite (proj1 (si_len _ _ I)) in Hl.
    assert (i < NOBJ)%nat as L4 by (pose proof (si_nrx _ _ I pos) as [Q _]; destruct X as (_ & _ & X); lia).
    assert (~ In mo (reserved E)) as Nres by (intro Q; apply (proj1 (si_hw _ _ I)) in Q; congruence).
    assert (mo <> 0)%nat as N0 by (intros ->; apply Nres; left; reflexivity).
    pose proof (SI_mo_set pos i mo s I Hu) as I'. split; [exact I'|]. set (s' := upd_mod _ _ s) in *.
    assert (forall q j, (j < NOBJ)%nat -> rx_mo s' q j = rx_mo s q j \/ q = pos /\ j = i /\ rx_mo s' q j = mo) as Hr.
    { intros q j Lj. unfold rx_mo, s'. rewrite modat_upd_any. destruct (_ && _) eqn:C; [|auto]. apply andb_prop in C. destruct C as [C _]. apply Nat.eqb_eq in C. subst q.
      destruct (rxat_upd i (fun o => set_r_mo o mo) (modat s pos) j) as [->|[-> ->]]; [left; reflexivity|right; repeat split]. }
    assert (forall q j, (j < NOBJ)%nat -> rx_mo s q j <> mo) as Hold. { intros q j Lj Q. destruct (si_mo _ _ I q j Lj) as [R|[R|R]]; [discriminate|congruence|]. rewrite Q in R. congruence. }
    split; [|split; [exact Hu|split; [|exact L4]]].
    - split; [apply XS_upd; [intro; repeat split|exact X]|]. split; [exact (unused_unreg s mo (si_hw _ _ I) Hu)|]. split; [|split; [intro q; destruct (Nat.eq_dec (rx_mo s' q i) mo); auto|split; [exact Hl|exact Nres]]].
      intros q j Lj Q. destruct (Hr q j Lj) as [R|(_ & R & _)]; [|exact R]. rewrite R in Q. exfalso. exact (Hold q j Lj Q).
    - destruct (Hr pos i L4) as [R|(_ & _ & R)]; [|auto]. right. rewrite R. destruct (si_mo _ _ I pos i L4) as [Q|Q]; [discriminate|exact Q]. }
  intros _. apply (h_bind _ 0 0 _ _ (fun dlc s => (SI (Some (pos, i)) s /\ F s /\ used s mo = false /\ (rx_mo s pos i = mo \/ rx_mo s pos i = 0%nat \/ used s (rx_mo s pos i) = true) /\ (i < NOBJ)%nat) /\ u8 dlc <= 8)).
  { apply h_gets. intros s H. split; [exact H|]. destruct H as (I & FF & _). destruct FF as ((_ & _ & X) & _). assert (i < m_nrx (modat s pos))%nat as L by lia.
    pose proof (si_rx _ _ I pos i L) as (_ & _ & _ & D). unfold u8. rewrite N.mod_small; lia. }
  intro dlc. apply (h_then _ (fun s => SI None s /\ F s /\ used s mo = true /\ filt s mo = Some (id, MASK_ONE) /\ (i < NOBJ)%nat)).
  - apply h_run. intros s ((I & FF & Hu & Hr & L4) & Hdl). assert (mo < NMSG E)%nat as Lm by apply FF.
    pose proof (define_cases mo id MASK_ONE dlc true SvRx true s Lm) as H.
    destruct (define_obj _ _ _ _ _ _ _ _ s) as [[e s']| |]; auto. destruct H as (H1 & H2 & H3 & H4 & H5 & H6 & H7). split; [|exact H4].
    assert (SI (Some (pos, i)) s') as I'. { refine (SI_define _ mo id MASK_ONE true s s' I _ H1 H2 H3 H5 _ _); [split; [exact Lm|left; apply FF]|destruct H6 as [H6|[H6 _]]; auto|destruct H7 as [H7|[H7 _]]; auto]. }
    assert (h_used (n_hw s') = set_nth (h_used (n_hw s)) mo true) as Us. { destruct H6 as [H6|[_ [H6|H6]]]; [exact H6| |]; exfalso; apply (N.lt_irrefl 2047); lia. }
    assert (used s' mo = true) as Um. { unfold used. rewrite Us. apply nth_set_nth_same. rewrite (proj1 (si_len _ _ I)). exact Lm. }
    assert (SI None s') as I2.
    { apply (SI_close pos i s' I'). replace (rx_mo s' pos i) with (rx_mo s pos i) by (unfold rx_mo, modat, tab_of; rewrite H1; reflexivity).
      destruct Hr as [->|[->|Hr]]; auto. right. unfold used. rewrite Us. apply set_nth_true_grow, Hr. }
    assert (F s') as F' by (eapply HF; eauto).
    split; [intros ->|intros _; split; [exact I2|apply F']]. split; [exact I2|]. split; [exact F'|]. split; [exact Um|]. split; [|exact L4].
    destruct H7 as [H7|[_ H7]]; [|congruence]. unfold filt. rewrite H7. apply nth_set_nth_same. rewrite (proj2 (si_len _ _ I)). exact Lm.
  - apply h_run. intros s (I & FF & Um & Fm & L4). destruct FF as (X & F2 & F3 & _ & F5 & F6). unfold rx_data_cnfg. unfold bind, gets. destruct (_ <? _)%nat; [|cbn; unfold P; auto].
    cbn. split; [|reflexivity]. split; [|exact X]. destruct X as (X1 & X2 & X3). apply (SI_reg s mo pos i id); auto.
    + apply (si_rx _ _ I). lia.
    + apply ident_mod; [reflexivity|exact L4].
Qed.

Lemma addrs_rx_nth l : forall a i, nth i (set_addrs_rx l a) rxo0 = (if (i <? length l)%nat then set_r_addr (nth i l rxo0) (nth i a (r_addr (nth i l rxo0))) else rxo0).
Proof.
  induction l as [|o l IH]; intros [|y a] [|i]; cbn [set_addrs_rx nth length]; try reflexivity.
  - change (0 <? S (length l))%nat with true. destruct o; reflexivity.
  - change (S i <? S (length l))%nat with (i <? length l)%nat. destruct (Nat.ltb_spec i (length l)); [destruct (nth i l rxo0); reflexivity|apply nth_overflow; assumption].
  - change (S i <? S (length l))%nat with (i <? length l)%nat. rewrite IH. reflexivity.
Qed.
Lemma addrs_tx_nth l : forall a i, nth i (set_addrs_tx l a) txo0 = (if (i <? length l)%nat then set_t_addr (nth i l txo0) (nth i a (t_addr (nth i l txo0))) else txo0).
Proof.
  induction l as [|o l IH]; intros [|y a] [|i]; cbn [set_addrs_tx nth length]; try reflexivity.
  - change (0 <? S (length l))%nat with true. destruct o; reflexivity.
  - change (S i <? S (length l))%nat with (i <? length l)%nat. destruct (Nat.ltb_spec i (length l)); [destruct (nth i l txo0); reflexivity|apply nth_overflow; assumption].
  - change (S i <? S (length l))%nat with (i <? length l)%nat. rewrite IH. reflexivity.
Qed.
Lemma desc_ok_parts d : desc_ok d = true -> (m_nrx d <= NOBJ)%nat /\ (m_ntx d <= NOBJ)%nat /\ length (m_rx d) = NOBJ /\ length (m_tx d) = NOBJ /\ in_use d = true.
Proof.
  unfold desc_ok, in_use. intro H. repeat (apply andb_prop in H; destruct H as [H ?]). repeat match goal with Q : (_ <=? _)%nat = true |- _ => apply Nat.leb_le in Q | Q : (_ =? _)%nat = true |- _ => apply Nat.eqb_eq in Q end. auto.
Qed.
Lemma SI_new pos d nr rxs txs s : SI None s -> in_use (modat s pos) = false -> desc_fits sizes d rxs txs -> SI None (upd_mod pos (fun _ => new_entry d nr rxs txs) s).
Proof.
  intros I Nu (Dok & Drx & Dtx & Dmo). apply desc_ok_parts in Dok. destruct Dok as (D1 & D2 & D3 & D4 & D5). set (e := new_entry d nr rxs txs). set (s' := upd_mod pos _ s).
  assert (forall p, modat s' p = modat s p \/ p = pos /\ modat s' p = e) as Hm.
  { intro p. unfold s'. rewrite modat_upd_any. destruct (_ && _) eqn:C; [|auto]. apply andb_prop in C. destruct C as [C _]. apply Nat.eqb_eq in C. auto. }
  assert (forall i, (i < NOBJ)%nat -> rxat e i = set_r_addr (rxat d i) (nth i rxs (r_addr (rxat d i)))) as Er.
  { intros i L. unfold rxat, e. cbn [new_entry m_rx]. rewrite addrs_rx_nth, D3. destruct (Nat.ltb_spec i NOBJ); [reflexivity|lia]. }
  assert (forall i, (i < NOBJ)%nat -> txat e i = set_t_addr (txat d i) (nth i txs (t_addr (txat d i)))) as Et.
  { intros i L. unfold txat, e. cbn [new_entry m_tx]. rewrite addrs_tx_nth, D4. destruct (Nat.ltb_spec i NOBJ); [reflexivity|lia]. }
  assert (in_use e = true) as Eu by exact D5. pose proof I as []. destruct (si_free0 pos Nu) as [Z1 Z2].
  split; try assumption.
  - intro p. destruct (Hm p) as [->|[-> ->]]; auto.
  - intros p i. destruct (Hm p) as [->|[-> ->]]; [apply si_rx0|]. cbn [e new_entry m_nrx]. intro L. rewrite Er by lia. apply Drx, L.
  - intros p i. destruct (Hm p) as [->|[-> ->]]; [apply si_tx0|]. cbn [e new_entry m_ntx]. intro L. rewrite Et by lia. apply Dtx, L.
  - intro p. destruct (Hm p) as [->|[-> ->]]; [apply si_free0|congruence].
  - intros p i L. unfold rx_mo. destruct (Hm p) as [->|[-> ->]]; [apply si_mo0, L|]. right. left. rewrite Er by exact L. apply Dmo.
  - intros mo p Hr. change (registered s mo p) in Hr. destruct (si_link0 mo p Hr) as (i & L1 & L2 & L3 & L4 & L5).
    assert (p <> pos) as Np by congruence. exists i. destruct (Hm p) as [->|[Q _]]; [|contradiction]. split; [exact L1|]. split; [exact L2|]. split; [exact L3|]. split; [exact L4|].
    intros q j Lj. unfold rx_mo. destruct (Hm q) as [->|[-> ->]]; [apply L5, Lj|]. rewrite Er by exact Lj. cbn [r_mo set_r_addr]. rewrite Dmo. intros <-. exfalso.
    apply (in_map fst) in Hr. apply (proj1 (proj2 si_hw0)) in Hr. apply (proj2 Hr). left. reflexivity.
  - intros n Hn. destruct (si_bits0 n Hn) as [L1 L2]. split; [exact L1|]. destruct (Hm (n / 4)%nat) as [->|[Q _]]; [exact L2|]. rewrite Q in L2. lia.
Qed.
Lemma limit_small pos nr : (pos < 8)%nat -> 2 <= limit_nr pos nr <= 200.
Proof. intro L. unfold limit_nr, NR_MAX, NR_MIN, NR_DEF. destruct (N.ltb_spec 124 nr), (N.ltb_spec nr 2); cbn [orb]; lia. Qed.
Lemma h_set_module pos d nr rxs txs : (pos < MAXM E)%nat -> desc_fits sizes d rxs txs ->
  hoare (fun s => SI None s /\ in_use (modat s pos) = false /\ (pos < length (tab_of s))%nat) 0 (set_module E pos d nr rxs txs) (fun _ => SI None).
Proof.
  intros Lp D. pose proof D as (Dok & _). destruct (desc_ok_parts d Dok) as (D1 & D2 & _ & _ & D5). unfold set_module. rewrite Dok. cbn [guard].
  apply (h_bind _ 0 0 _ _ (fun _ s => SI None s /\ in_use (modat s pos) = false /\ (pos < length (tab_of s))%nat)); [apply h_ret; auto|]. intros _. cbv zeta.
  set (n := limit_nr pos nr). assert (2 <= n <= 200) as Hn by (apply limit_small; destruct HE as [[_ ?] _]; lia). set (P := fun s => SI None s /\ XS pos d s).
  apply (h_bind _ 0 0 _ _ (fun _ => P)).
  { apply h_modify; [|reflexivity]. intros s (I & Nu & Ll). split; [apply (SI_new pos d n rxs txs); assumption|]. unfold XS. rewrite modat_upd_any, Nat.eqb_refl. destruct (Nat.ltb_spec pos (length (tab_of s))); [|lia]. cbn [andb]. repeat split. exact D5. }
  intros _. apply (h_then _ P); [|apply (h_then _ P)].
  - apply (h_conseq _ P _ _ _ (fun _ => P)); [auto|unfold P; cbn; tauto|]. apply h_for_err. intros j Lj. apply (h_bind _ 0 0 _ _ (fun _ => P)).
    + apply h_modify; [|reflexivity]. intros s [I X]. split; [apply SI_upd; [intros; mild_leaf|exact I]|apply XS_upd; [intro; repeat split|exact X]].
    + intros _. apply h_tx_cnfg; [intros s s' H _; apply XS_cfg, H|]. intros s (_ & X2 & _). lia.
  - apply (h_conseq _ P _ _ _ (fun _ => P)); [auto|unfold P; cbn; tauto|]. apply h_for_err. intros j Lj. apply h_rx_slot; [exact D1|lia|exact Hn].
  - apply (h_pre _ (SI None)); [intros s [I _]; exact I|].
    apply (h_bind _ 0 0 _ _ (fun _ => SI None)); [apply h_gets; auto|]. intro tab. apply (h_bind _ 0 0 _ _ (fun _ => SI None)); [apply h_gets; auto|]. intro k.
    apply (h_bind _ 0 0 _ _ (fun _ => SI None)); [apply h_shared|]. intro e. apply (h_bind _ 0 0 _ _ (fun _ => SI None)); [apply h_modify; [intros; si_keep|reflexivity]|]. intros _. apply h_ret; auto.
Qed.
Lemma h_report_if e : hoare (SI None) 1 (report_if e) (fun _ => SI None).
Proof.
  unfold report_if. destruct (e =? ERR_OK); [apply (h_cost _ 0); [lia|apply h_ret; auto]|]. apply (h_bind _ 0 1 _ _ (fun _ => SI None)); [apply h_gets; auto|]. intro nr. apply h_report. intros; si_keep.
Qed.
Lemma h_add d nr rxs txs : desc_fits sizes d rxs txs -> hoare (fun s => SI None s /\ length (tab_of s) = MAXM E) 1 (add_module E d nr rxs txs) (fun _ => SI None).
Proof.
  intro D. unfold add_module. apply (h_bind _ 0 1 _ _ (fun tab s => (SI None s /\ length (tab_of s) = MAXM E) /\ tab = tab_of s)); [apply h_gets; auto|]. intro tab.
  destruct (first_unused tab 0) as [i|] eqn:Fu; [|apply (h_cost _ 0); [lia|apply h_ret; tauto]].
  assert (forall n (err : N), hoare (fun s => (SI None s /\ length (tab_of s) = MAXM E) /\ tab = tab_of s) 1 (e <- set_module E i d n rxs txs ;; report_if e ;;; ret err) (fun _ => SI None)) as H.
  { intros n err. apply h_at. intros s0 ((I & L) & T). apply first_unused_spec in Fu. rewrite Nat.sub_0_r in Fu. destruct Fu as (Li & Ui & _).
    apply (h_bind _ 0 1 _ _ (fun _ => SI None)).
    - eapply h_pre; [|apply (h_set_module i d n rxs txs); [|exact D]]; [|rewrite T in Li; lia]. intros s ->. subst tab. split; [exact I|]. split; [exact Ui|lia].
    - intro e. apply (h_bind _ 1 0 _ _ (fun _ => SI None)); [apply h_report_if|]. intros _. apply h_ret. auto. }
  destruct (existsb _ _); apply H.
Qed.

(** ** number and type changes *)
Lemma h_change_ids type new actual : hoare (fun s => SI None s /\ named s type actual <> None) 0 (change_nr_ids E type new actual) (fun _ => SI None).
Proof.
  unfold change_nr_ids. apply (h_bind _ 0 0 _ _ (fun tab s => SI None s /\ named s type actual <> None /\ tab = tab_of s)); [apply h_gets; tauto|]. intro tab.
  destruct (find_type_nr tab type actual 0) as [pos|] eqn:Ft.
  2: { intros k s (_ & Nn & ->) _. exfalso. apply Nn. rewrite <- Ft. clear. unfold named, modat. generalize (tab_of s). intro tab.
       assert (forall i, find_type_nr tab type actual i = option_map (fun p => (i + p)%nat) (find (fun p => strn_eq 5 type (m_type (nth p tab modl0)) && (m_nr (nth p tab modl0) =? actual)) (seq 0 (length tab)))) as K.
       { induction tab as [|m t IH]; intro i; cbn [find_type_nr length seq find]; [reflexivity|]. cbn [nth]. destruct (_ && _); [cbn; f_equal; lia|]. rewrite IH.
         rewrite <- seq_shift. generalize (seq 0 (length t)). intro l. induction l as [|y l IHl]; cbn [find map]; [reflexivity|]. cbn [nth]. destruct (_ && _); [cbn; f_equal; lia|exact IHl]. }
       rewrite K. destruct (find _ _); reflexivity. }
  apply (h_pre _ (SI None)); [tauto|].
  apply (h_bind _ 0 0 _ _ (fun _ => SI None)); [apply h_modify; [intros s I; apply SI_upd; [intros; mild_leaf|exact I]|reflexivity]|]. intros _.
  apply (h_bind _ 0 0 _ _ (fun m s => SI None s /\ modat s pos = m)); [apply h_gets; auto|]. intro m. set (P := fun s => SI None s /\ modat s pos = m).
  apply (h_then _ P); [|apply (h_then _ P)].
  - apply (h_conseq _ P _ _ _ (fun _ => P)); [auto|unfold P; cbn; tauto|]. apply h_for_err. intros j Lj. apply h_tx_cnfg; [|intros s ->; lia].
    intros s s' Hc _. unfold modat, tab_of. rewrite Hc. auto.
  - apply (h_conseq _ P _ _ _ (fun _ => P)); [auto|unfold P; cbn; tauto|]. apply h_for_err. intros j Lj. cbv zeta.
    eapply h_pre; [|apply h_define]. 2: { intros s s' Hc _ _. unfold modat, tab_of. rewrite Hc. auto. }
    cbn. intros s [I Q]. split; [exact I|]. split; [exact Q|]. pose proof (si_nrx _ _ I pos) as [Ln _]. rewrite Q in Ln. assert (j < NOBJ)%nat as L4 by lia.
    assert (rx_mo s pos j = r_mo (rxat m j)) as Rm by (unfold rx_mo; rewrite Q; reflexivity). split.
    + destruct (si_mo _ _ I pos j L4) as [R|[R|R]]; [discriminate| |]; rewrite Rm in R.
      * rewrite R. destruct HE as (_ & ? & _). lia.
      * rewrite <- (proj1 (si_len _ _ I)). apply Nat.nle_gt. intro L. unfold used in R. rewrite nth_overflow in R by exact L. discriminate.
    + right. split; [reflexivity|]. split; [reflexivity|]. exists pos, j. split; [exact L4|]. split; [exact Rm|]. apply ident_mod; [reflexivity|exact L4].
  - apply (h_pre _ (SI None)); [intros s [I _]; exact I|].
    apply (h_bind _ 0 0 _ _ (fun _ => SI None)); [apply h_gets; auto|]. intro tab'. apply (h_bind _ 0 0 _ _ (fun _ => SI None)); [apply h_gets; auto|]. intro k. apply h_shared.
Qed.
Lemma strn_eq_refl n a : strn_eq n a a = true.
Proof. revert a. induction n as [|n IH]; intro a; cbn; [reflexivity|]. rewrite N.eqb_refl. destruct (hd 0 a =? 0); auto. Qed.
Lemma named_self s pos : (pos < length (tab_of s))%nat -> named s (m_type (modat s pos)) (m_nr (modat s pos)) <> None.
Proof.
  intros L H. unfold named in H. apply find_none with (x := pos) in H; [|apply in_seq; lia]. rewrite strn_eq_refl, N.eqb_refl in H. discriminate.
Qed.
Lemma h_change_nr pos new : hoare (fun s => SI None s /\ (pos < length (tab_of s))%nat) 0 (change_nr E pos new) (fun _ => SI None).
Proof.
  unfold change_nr. apply (h_bind _ 0 0 _ _ (fun _ s => SI None s /\ (pos < length (tab_of s))%nat)); [apply h_gets; auto|]. intro v.
  apply (h_bind _ 0 0 _ _ (fun m s => SI None s /\ named s (m_type m) (m_nr m) <> None)); [apply h_gets; intros s [I L]; split; [exact I|apply named_self, L]|]. intro m.
  destruct v as [f|]; [|apply h_change_ids]. cbv zeta.
  assert (forall st, hoare (fun s => SI None s /\ named s (m_type m) (m_nr m) <> None) 0 (change_nr_ids E (m_type m) new (m_nr m) >>> set_silent_awake E pos st) (fun _ => SI None)) as H.
  { intro st. apply (h_then _ (SI None)); [|apply h_set_silent]. eapply h_conseq; [intros s H; exact H| |apply h_change_ids]. cbn. auto. }
  destruct (_ =? 0); [apply H|]. destruct (_ =? 3); [apply H|apply h_ret; tauto].
Qed.
Lemma SI_retype pos c s : SI None s -> change_fits sizes (c_desc c) (c_rx c) (c_tx c) -> SI None (upd_tx (fun x => set_x_end (set_x_reg x 0) 0) (upd_mod pos (retype c) s)).
Proof.
  intros I (Dok & _ & _ & Drx & Dtx). apply desc_ok_parts in Dok. destruct Dok as (D1 & D2 & _ & _ & D5). set (s' := upd_tx _ _).
  assert (forall p, modat s' p = modat s p \/ p = pos /\ modat s' p = retype c (modat s pos)) as Hm.
  { intro p. change (modat s' p) with (modat (upd_mod pos (retype c) s) p). rewrite modat_upd_any. destruct (_ && _) eqn:C; [|auto]. apply andb_prop in C. destruct C as [C _]. apply Nat.eqb_eq in C. auto. }
  assert (forall m i, (i < NOBJ)%nat -> rxat (retype c m) i = retype_rx (rxat m i) (rxat (c_desc c) i) (nth i (c_rx c) 0%nat)) as Er.
  { intros m i L. unfold rxat at 1, retype. cbn [m_rx]. unfold NOBJ in L. do 4 (destruct i as [|i]; [reflexivity|]). lia. }
  assert (forall m i, (i < NOBJ)%nat -> txat (retype c m) i = retype_tx (txat (c_desc c) i) (nth i (c_tx c) 0%nat)) as Et.
  { intros m i L. unfold txat at 1, retype. cbn [m_tx]. unfold NOBJ in L. do 4 (destruct i as [|i]; [reflexivity|]). lia. }
  assert (forall m i, (i < NOBJ)%nat -> rx_fits sizes (rxat (retype c m) i)) as Fr. { intros m i L. rewrite Er by exact L. exact (Drx i L). }
  assert (forall q j, (j < NOBJ)%nat -> rx_mo s' q j = rx_mo s q j) as Hmo.
  { intros q j L. unfold rx_mo. destruct (Hm q) as [->|[-> ->]]; [reflexivity|]. rewrite Er by exact L. reflexivity. }
  pose proof I as []. split; try assumption.
  - intro p. destruct (Hm p) as [->|[-> ->]]; auto.
  - intros p i. destruct (Hm p) as [->|[-> ->]]; [apply si_rx0|]. cbn [retype m_nrx]. intro L. apply Fr. lia.
  - intros p i. destruct (Hm p) as [->|[-> ->]]; [apply si_tx0|]. cbn [retype m_ntx]. intro L. rewrite Et by lia. exact (Dtx i L).
  - intro p. destruct (Hm p) as [->|[-> ->]]; [apply si_free0|]. intro Q. change (in_use (c_desc c) = false) in Q. congruence.
  - intros p i L. rewrite Hmo by exact L. exact (si_mo0 p i L).
  - intros mo p Hr. destruct (si_link0 mo p Hr) as (i & L1 & L2 & L3 & L4 & L5). exists i. split; [exact L1|].
    split; [destruct (Hm p) as [->|[-> ->]]; [exact L2|exact D5]|]. split; [destruct (Hm p) as [->|[-> ->]]; [exact L3|apply Fr, L1]|]. split; [exact L4|].
    intros q j Lj. rewrite Hmo by exact Lj. apply L5, Lj.
  - intros n Hn. change (N.testbit 0 (N.of_nat n) = true) in Hn. rewrite N.bits_0 in Hn. discriminate.
Qed.
Lemma h_change_type pos type : hoare (SI None) 0 (change_type E pos type) (fun _ => SI None).
Proof.
  unfold change_type. apply (h_bind _ 0 0 _ _ (fun c s => SI None s /\ match c with Some c => change_fits sizes (c_desc c) (c_rx c) (c_tx c) | None => True end)).
  { apply h_gets. intros s I. split; [exact I|]. destruct (nth pos (k_chg (n_cfg s)) None) as [c|] eqn:C; [|exact Logic.I]. exact (si_chg _ _ I pos c C). }
  intros [c|]; [|apply h_ret; tauto]. destruct (strn_eq _ _ _); [|apply h_ret; tauto]. apply h_at. intros s0 [I0 F]. pose proof F as (Dok & D1 & D2 & _).
  rewrite Dok. assert ((m_nrx_s (c_desc c) <=? NOBJ)%nat = true) as -> by (apply Nat.leb_le; exact D1). assert ((m_ntx_s (c_desc c) <=? NOBJ)%nat = true) as -> by (apply Nat.leb_le; exact D2). cbn [guard andb].
  apply (h_bind _ 0 0 _ _ (fun _ s => s = s0)); [apply h_ret; auto|]. intros _.
  apply (h_bind _ 0 0 _ _ (fun _ s => s = upd_mod pos (retype c) s0)); [apply h_modify; [intros s ->; reflexivity|reflexivity]|]. intros _.
  apply (h_bind _ 0 0 _ _ (fun _ => SI None)); [apply h_modify; [intros s ->; apply SI_retype; assumption|reflexivity]|]. intros _.
  apply (h_bind _ 0 0 _ _ (fun _ => SI None)); [apply h_gets; auto|]. intro n.
  apply (h_bind _ 0 0 _ _ (fun _ => SI None)).
  { apply h_for_do. intros j _. apply (h_bind _ 0 0 _ _ (fun _ => SI None)); [apply h_gets; auto|]. intro st. destruct (st =? AWAKE); [|apply h_ret; auto].
    apply (h_bind _ 0 0 _ _ (fun m s => SI None s /\ modat s j = m)); [apply h_gets; auto|]. intro m. set (P := fun s => SI None s /\ modat s j = m).
    apply (h_conseq _ P _ _ _ (fun _ => P)); [auto|intros _ s [I _]; exact I|]. apply h_for_do. intros i Li. apply (h_bind _ 0 0 _ _ (fun _ => P)); [|intros _; apply h_ret; auto].
    apply h_tx_cnfg; [|intros s ->; lia]. intros s s' Hc _. unfold modat, tab_of. rewrite Hc. auto. }
  intros _. apply (h_bind _ 0 0 _ _ (fun _ => SI None)); [apply h_emit_cb; intros; si_keep|]. intros _. apply h_ret; auto.
Qed.
Lemma h_type_add type d rxs txs cb : change_fits sizes d rxs txs -> hoare (SI None) 0 (change_type_add type d rxs txs cb) (fun _ => SI None).
Proof.
  intro F. unfold change_type_add. apply (h_bind _ 0 0 _ _ (fun _ => SI None)); [apply h_gets; auto|]. intro tab. destruct (find_type tab type 0) as [pos|]; [|apply h_ret; auto].
  apply (h_bind _ 0 0 _ _ (fun _ => SI None)); [|intros _; apply h_ret; auto]. apply h_modify; [|reflexivity]. intros s []. split; try assumption.
  intros p c. cbn. destruct (nth_set_nth_or (k_chg (n_cfg s)) pos (Some (ChEnt d rxs txs cb)) p None) as [->| ->]; [|apply si_chg0]. intro Q. injection Q as <-. exact F.
Qed.

(** ** frames *)
Definition keepsSI {A} (m : M A) : Prop := hoare (SI None) 0 m (fun _ => SI None).
Lemma k_bind {A B} (m : M A) (f : A -> M B) : keepsSI m -> (forall a, keepsSI (f a)) -> keepsSI (bind m f).
Proof. intros H1 H2. apply (h_bind _ 0 0 _ _ (fun _ => SI None)); assumption. Qed.
Lemma k_then m1 m2 : keepsSI m1 -> keepsSI m2 -> keepsSI (m1 >>> m2).
Proof. intros H1 H2. apply h_then0; auto. Qed.
Lemma k_ret {A} (a : A) : keepsSI (ret a).
Proof. apply h_ret; auto. Qed.
Lemma k_gets {A} (f : node -> A) : keepsSI (gets f).
Proof. apply h_gets; auto. Qed.
Lemma k_modify f : (forall s, SI None s -> SI None (f s)) -> (forall s, n_err (f s) = n_err s) -> keepsSI (modify f).
Proof. intros H1 H2. apply h_modify; assumption. Qed.
Lemma k_for_err n i f : (forall j, keepsSI (f j)) -> keepsSI (for_err n i f).
Proof. intro H. apply h_for_err. intros; apply H. Qed.
Lemma k_for_do n i f : (forall j, keepsSI (f j)) -> keepsSI (for_do n i f).
Proof. intro H. apply h_for_do. intros; apply H. Qed.
Lemma k_cb cb f : keepsSI (emit_cb cb f).
Proof. apply h_emit_cb. intros; si_keep. Qed.
Ltac k1 := first [simple apply k_bind; [|intro] | simple apply k_then | simple apply k_ret | simple apply k_gets | simple apply k_for_err; intro | simple apply k_for_do; intro | simple apply k_cb
  | unfold emit; simple apply k_modify; [intros; si_keep|reflexivity] | simple apply k_modify; [intros; si_keep|reflexivity] | simple apply k_modify; [intros; apply SI_upd; [intros; mild_leaf|assumption]|reflexivity]
  | match goal with |- keepsSI (if ?c then _ else _) => destruct c | |- keepsSI (match ?c with _ => _ end) => destruct c end ].
Lemma k_silent pos st : keepsSI (set_silent_awake E pos st).
Proof. exact (h_set_silent None pos st). Qed.
Lemma k_change pos type : keepsSI (change_type E pos type).
Proof. exact (h_change_type pos type). Qed.
Lemma k_ask : keepsSI ask.
Proof. apply h_run. intros s I. unfold ask. destruct (n_orc s); [auto|]. split; [si_keep|reflexivity]. Qed.
Lemma k_send_msg id dlc data : dlc <= 8 -> keepsSI (send_msg id dlc data).
Proof. intro L. apply N.leb_le in L. unfold send_msg. rewrite L. cbn [guard]. repeat (simple apply k_ask || k1). Qed.
Lemma k_sys_tx nr data : keepsSI (sys_tx nr data).
Proof. unfold sys_tx. repeat (simple apply k_send_msg || k1); discriminate. Qed.
Lemma k_get_error : keepsSI get_error.
Proof.
  intros k s I R. unfold get_error. destruct (store_get k (n_err s) R) as (st & [e r] & -> & Rk). split; [si_keep|exact Rk].
Qed.
Lemma k_send_one_error : keepsSI send_one_error.
Proof. unfold send_one_error, send_error. repeat (simple apply k_get_error || simple apply k_sys_tx || k1). Qed.
Lemma k_drain n : keepsSI (drain_errors n).
Proof.
  induction n as [|n IH]; cbn [drain_errors].
  - apply k_bind; [apply k_gets|]. intro c. destruct (_ =? _)%nat; [apply k_ret|]. intros k s _ _. exact I.
  - apply k_bind; [apply k_gets|]. intro c. destruct (_ =? _)%nat; [apply k_ret|]. apply k_bind; [apply k_send_one_error|]. intros _. exact IH.
Qed.
Lemma k_mode m : keepsSI (set_node_mode m).
Proof. unfold set_node_mode. repeat (simple apply k_ask || k1). Qed.
Lemma k_baud r : keepsSI (set_baudrate r).
Proof.
  unfold set_baudrate. apply k_bind; [apply k_gets|]. intro tab. generalize ERR_OK. induction tab as [|x tab IH]; intro e; cbn [set_baudrate_loop]; [apply k_ret|].
  unfold hw_set_baudrate. repeat (simple apply IH || k1).
Qed.
Lemma find_nr_lt tab nr i p : find_nr tab nr i = Some p -> (p < i + length tab)%nat.
Proof. revert i. induction tab as [|m t IH]; intros i H; cbn in H |- *; [discriminate|]. destruct (m_nr m =? nr); [injection H as <-; lia|]. apply IH in H. lia. Qed.
Lemma h_cmd bc pos nr src : hoare (fun s => SI None s /\ (bc = false -> (pos < length (tab_of s))%nat)) 0 (sys_cmd E bc pos nr src) (fun _ => SI None).
Proof.
  unfold sys_cmd. set (P := fun s => SI None s /\ (bc = false -> (pos < length (tab_of s))%nat)).
  apply (h_bind _ 0 0 _ _ (fun _ => P)); [apply h_gets; auto|]. intro n.
  assert (forall m : M N, keepsSI m -> hoare P 0 m (fun _ => SI None)) as W. { intros m H. eapply h_pre; [|exact H]. intros s [I _]. exact I. }
  assert (forall p, keepsSI (status_ackn E p)) as Ks by (intro; unfold status_ackn; repeat (simple apply k_sys_tx || k1)).
  assert (forall p, keepsSI (version_ackn E p)) as Kv by (intro; unfold version_ackn; repeat (simple apply k_sys_tx || k1)).
  assert (forall st, keepsSI (sys_silent_awake E src nr st)) as Ka by (intro st; unfold sys_silent_awake; repeat (simple apply k_silent || k1)).
  destruct (cmd_of (b src 0)); try solve [apply W; unfold set_cycle_time; repeat (simple apply Ks || simple apply Kv || simple apply Ka || simple apply k_drain || simple apply k_mode || simple apply k_baud || simple apply k_change || k1)].
  destruct bc; [apply h_ret; unfold P; tauto|]. destruct (_ =? _); [|apply h_ret; unfold P; tauto]. eapply h_pre; [|apply h_change_nr]. unfold P. cbn. intros s [I L]. split; [exact I|auto].
Qed.
Lemma k_sys nr dlc src : keepsSI (sys_msg_rx E nr dlc src).
Proof.
  unfold sys_msg_rx. destruct (negb _); [apply k_ret|]. destruct (_ =? _).
  - apply k_bind; [apply k_gets|]. intro n. destruct (_ =? _)%nat; [apply k_ret|]. eapply h_pre; [|apply h_cmd]. intros s I. split; [exact I|discriminate].
  - apply (h_bind _ 0 0 _ _ (fun tab s => SI None s /\ tab = tab_of s)); [apply h_gets; auto|]. intro tab. destruct (find_nr tab nr 0) as [pos|] eqn:F; [|apply h_ret; tauto].
    eapply h_pre; [|apply h_cmd]. intros s [I ->]. split; [exact I|]. intros _. apply find_nr_lt in F. exact F.
Qed.
Lemma h_on_sys id dlc data : hoare (SI None) 1 (on_sys E id dlc data) (fun _ => SI None).
Proof. unfold on_sys. apply (h_bind _ 0 1 _ _ (fun _ => SI None)); [apply k_sys|]. intro e. apply h_report_if. Qed.
Lemma land3_of id f m : N.land (N.lxor id f) MASK_ONE = 0 -> m = MASK_ONE -> N.land id 3 = f mod 4.
Proof.
  intros H _. assert (N.land (N.lxor id f) 3 = 0) as H3. { change 3 with (N.land MASK_ONE 3). rewrite N.land_assoc, H. reflexivity. }
  change 4 with (2 ^ 2). rewrite <- N.land_ones. change (N.ones 2) with 3. apply N.bits_inj. intro k. apply (f_equal (fun x => N.testbit x k)) in H3.
  rewrite !N.land_spec, N.lxor_spec, N.bits_0 in *. destruct (N.testbit id k), (N.testbit f k), (N.testbit 3 k); auto; discriminate.
Qed.
Lemma find_slot_in l mo p : find_slot l mo = Some p -> In (mo, p) l.
Proof. induction l as [|[a x] l IH]; cbn [find_slot]; [discriminate|]. destruct (Nat.eqb_spec a mo) as [->|N]; [intro H; injection H as <-; left; reflexivity|right; auto]. Qed.
Lemma h_on_data mo id dlc data : hoare (fun s => SI None s /\ passes s mo id) 0 (on_data E mo id dlc data) (fun _ => SI None).
Proof.
  unfold on_data. apply (h_bind _ 0 0 _ _ (fun t s => (SI None s /\ passes s mo id) /\ t = h_rxtab (n_hw s))); [apply h_gets; auto|]. intro t.
  destruct (find_slot t mo) as [pos|] eqn:Fs; [|apply h_ret; tauto]. apply h_at. intros s0 ((I & Ps) & ->). apply find_slot_in in Fs.
  destruct (si_link _ _ I mo pos Fs) as (i & L1 & L2 & L3 & L4 & L5). unfold passes in Ps. fold (filt s0 mo) in Ps. destruct (filt s0 mo) as [[f m]|] eqn:Fl; [|contradiction].
  destruct (L4 f m eq_refl) as [Hm Hi]. rewrite Hm in Ps. apply (land3_of _ _ MASK_ONE) in Ps; [|reflexivity].
  apply (h_bind _ 0 0 _ _ (fun _ => SI None)); [|intros _; apply k_ret]. unfold rx_data_main. rewrite Ps, Hi.
  apply (h_bind _ 0 0 _ _ (fun m s => m = modat s0 pos /\ SI None s)); [apply h_gets; intros s ->; auto|]. intro m'. apply h_at. intros s1 [-> I1]. cbv zeta. apply (h_pre _ (SI None)); [intros s ->; exact I1|].
  destruct L3 as (_ & F2 & F3 & _). destruct (_ && _); [apply k_ret|]. destruct (_ && _); [apply k_ret|].
  apply k_bind; [apply h_call_rx; assumption|]. intro e. repeat k1.
Qed.

(** ** the cyclic transmission *)
Definition cnt (reg : N) (c : nat) : nat := length (filter (fun k => N.testbit reg (N.of_nat k)) (seq c (4 * MAXM E - c))).
Lemma cnt_mono reg c c' : (c <= c')%nat -> (cnt reg c' <= cnt reg c)%nat.
Proof.
  intro L. unfold cnt. destruct (Nat.le_gt_cases (4 * MAXM E) c') as [H|H].
  - replace (4 * MAXM E - c')%nat with 0%nat by lia. cbn. lia.
  - replace (4 * MAXM E - c)%nat with ((c' - c) + (4 * MAXM E - c'))%nat by lia. rewrite seq_app, filter_app, app_length. replace (c + (c' - c))%nat with c' by lia. lia.
Qed.
Lemma cnt_hit reg c : (c < 4 * MAXM E)%nat -> N.testbit reg (N.of_nat c) = true -> cnt reg c = S (cnt reg (S c)).
Proof. intros L H. unfold cnt. replace (4 * MAXM E - c)%nat with (S (4 * MAXM E - S c)) by lia. cbn [seq filter]. rewrite H. reflexivity. Qed.
Lemma skip_inv reg n : forall send cur e send1 cur1, send = N.shiftr reg (N.of_nat cur) -> skip n send cur e = (send1, cur1) -> send1 = N.shiftr reg (N.of_nat cur1) /\ (cur <= cur1)%nat.
Proof.
  induction n as [|n IH]; intros send cur e send1 cur1 Hs H; cbn [skip] in H; [injection H as <- <-; auto|].
  destruct (_ && _); [|injection H as <- <-; auto]. apply IH in H; [destruct H; split; [assumption|lia]|]. rewrite Hs, N.shiftr_shiftr. f_equal. lia.
Qed.
Lemma h_send_one reg cur can : N.testbit reg (N.of_nat cur) = true -> hoare (fun s => SI None s /\ x_reg (n_tx s) = reg) 1 (send_one E cur can) (fun _ s => SI None s /\ x_reg (n_tx s) = reg).
Proof.
  intro Hb. set (P := fun s => SI None s /\ x_reg (n_tx s) = reg).
  assert (forall A (m : M A) n, hoare (SI None) n m (fun _ => SI None) -> pres (fun s s' => n_tx s' = n_tx s) m -> hoare P n m (fun _ => P)) as Fr.
  { intros A m n H1 H2. eapply h_frame; [exact H1|exact H2|]. cbn. intros s s' -> ?. assumption. }
  apply h_at. intros s0 [I Rg]. subst reg. destruct (si_bits _ _ I cur Hb) as [Lp Lo]. unfold send_one. cbv zeta. change NOBJ with 4%nat in *.
  apply Nat.ltb_lt in Lp. rewrite Lp. cbn [guard]. apply (h_bind _ 0 1 _ _ (fun _ s => s = s0)); [apply h_ret; auto|]. intros _.
  apply (h_bind _ 0 1 _ _ (fun _ s => s = s0)); [apply h_gets; auto|]. intro dlc.
  apply (h_bind _ 0 1 _ _ (fun _ => P)).
  { apply h_run. intros s ->. unfold tx_data_main, bind, gets. destruct (si_tx _ _ I _ _ Lo) as (_ & T2 & _ & n & T3 & T4). rewrite <- (si_mem _ _ I), nth_error_map in T3.
    destruct (nth_error (n_mem s0) (t_addr (txat (modat s0 (cur / 4)) (cur mod 4)))) as [app|]; [|discriminate]. injection T3 as T3. destruct (t_conv_s _) as [g|]; [|congruence].
    assert ((8 <=? length app)%nat = true) as -> by (apply Nat.leb_le; lia). cbn. split; [split; [exact I|reflexivity]|reflexivity]. }
  intro r. apply (h_bind _ 1 0 _ _ (fun _ => P)); [|intros _; apply h_ret; auto]. destruct (_ =? _).
  - apply (h_bind _ 0 1 _ _ (fun idl s => P s /\ snd idl <= 8)); [apply h_gets; intros s Ps; split; [exact Ps|apply (si_dlc _ _ (proj1 Ps))]|]. intros [xid xdl]. cbn [fst snd].
    apply h_at. intros s1 [P1 L8]. apply (h_pre _ P); [intros s ->; exact P1|]. apply (h_bind _ 0 1 _ _ (fun _ => P)).
    + apply Fr; [apply k_send_msg, L8|]. unfold send_msg. pres_tac; reflexivity.
    + intro e. apply Fr; [apply h_report_if|]. apply pres_report_if; [split; congruence|]. reflexivity.
  - apply Fr; [apply h_report_if|]. apply pres_report_if; [split; congruence|]. reflexivity.
Qed.
Lemma h_send_loop reg fuel : forall send cur can, send = N.shiftr reg (N.of_nat cur) ->
  hoare (fun s => SI None s /\ x_reg (n_tx s) = reg) (cnt reg cur) (send_loop E fuel send cur can) (fun _ => SI None).
Proof.
  induction fuel as [|fuel IH]; intros send cur can Hs; cbn [send_loop]; [intros k s _ _; exact I|]. destruct (send =? 0); [apply (h_cost _ 0); [lia|apply h_ret; tauto]|].
  set (P := fun s => SI None s /\ x_reg (n_tx s) = reg). apply (h_bind _ 0 (cnt reg cur) _ _ (fun _ => P)); [apply h_gets; auto|]. intro e.
  destruct (skip (S e) send cur e) as [send1 cur1] eqn:Sk. apply (skip_inv reg) in Sk; [|exact Hs]. destruct Sk as [S1 L1]. destruct (N.odd send1) eqn:Od.
  - assert (N.testbit reg (N.of_nat cur1) = true) as Hb. { rewrite S1, <- N.bit0_odd, N.shiftr_spec, N.add_0_l in Od by lia. exact Od. }
    intros k s Ps Rs. pose proof (si_bits _ _ (proj1 Ps) cur1) as B. rewrite (proj2 Ps) in B. destruct (B Hb) as [B1 _]. clear B.
    revert k s Ps Rs. change (hoare P (cnt reg cur) (can' <- send_one E cur1 can ;; send_loop E fuel (N.shiftr send1 1) (S cur1) can') (fun _ => SI None)).
    apply (h_cost _ (1 + cnt reg (S cur1))).
    + change (1 + cnt reg (S cur1))%nat with (S (cnt reg (S cur1))). rewrite <- (cnt_hit reg cur1); [apply cnt_mono, L1| |exact Hb]. change 4%nat with NOBJ in *. unfold NOBJ in *. pose proof (Nat.div_mod cur1 4). pose proof (Nat.mod_upper_bound cur1 4). lia.
    + apply (h_bind _ 1 _ _ _ (fun _ => P)); [apply h_send_one, Hb|]. intro can'. apply IH. rewrite S1, N.shiftr_shiftr. f_equal. lia.
  - apply (h_cost _ (cnt reg cur1)); [apply cnt_mono, L1|]. apply IH. exact S1.
Qed.
Lemma sending_cnt s : sending E s = cnt (x_reg (n_tx s)) 0.
Proof. unfold sending, cnt. rewrite Nat.sub_0_r. f_equal. apply filter_ext. intro k. unfold cyclic. f_equal. f_equal. pose proof (Nat.div_mod k 4). lia. Qed.
Lemma k_check now : keepsSI (check_image now).
Proof.
  assert (forall n first, keepsSI (check_modules n first now)) as Hc. { induction n as [|n IH]; intro first; cbn [check_modules]; [apply k_ret|]. unfold check_module. repeat (simple apply IH || k1). }
  unfold check_image, clear_image. repeat (simple apply Hc || k1).
Qed.
Lemma h_on_process dlc now n : hoare (fun s => SI None s /\ sending E s = n) n (on_process E dlc now) (fun _ => SI None).
Proof.
  unfold on_process. set (P := fun s => SI None s /\ sending E s = n).
  assert (forall A (m : M A), keepsSI m -> pres same_tx m -> hoare P 0 m (fun _ => P)) as Fr.
  { intros A m H1 H2. eapply h_frame; [exact H1|exact H2|]. cbv beta. intros s s' (T & _) <-. rewrite !sending_cnt. rewrite T. reflexivity. }
  apply (h_bind _ 0 n _ _ (fun _ => P)); [apply Fr; [unfold process_request_rx; repeat k1|apply tx_request]|]. intros _.
  apply (h_bind _ 0 n _ _ (fun _ => P)); [apply Fr; [apply k_check|apply tx_check]|]. intros _.
  apply (h_cost _ (n + 0)); [lia|]. apply (h_bind _ n 0 _ _ (fun _ => SI None)).
  - unfold send_process_data. apply h_at. intros s0 [I Hn]. apply (h_bind _ 0 n _ _ (fun reg s => s = s0 /\ reg = x_reg (n_tx s0))); [apply h_gets; intros s ->; auto|]. intro reg.
    apply h_at. intros s1 [-> ->]. rewrite <- Hn, sending_cnt. eapply h_pre; [|apply h_send_loop; rewrite N.shiftr_0_r; reflexivity]. intros s ->. auto.
  - intros _. change (keepsSI (rx_process_main dlc now ;;; (c <- gets err_count ;; (if (0 <? c)%nat then send_one_error else ret tt)))). unfold rx_process_main. repeat (simple apply k_send_one_error || k1).
Qed.
Lemma h_frame_rx mo id dlc data now n : hoare (fun s => SI None s /\ passes s mo id /\ sending E s = n) (S n) (frame_rx E mo id dlc data now) (fun _ => SI None).
Proof.
  unfold frame_rx. set (P := fun s => SI None s /\ passes s mo id /\ sending E s = n).
  apply (h_bind _ 0 (S n) _ _ (fun _ => P)); [apply h_gets; auto|]. intro sy.
  apply (h_bind _ 0 (S n) _ _ (fun _ s => SI None s /\ sending E s = n)).
  { destruct sy; [|apply h_ret; unfold P; tauto]. apply (h_conseq _ (fun s => (SI None s /\ passes s mo id) /\ sending E s = n) _ _ _ (fun _ s => SI None s /\ sending E s = n)); [unfold P; tauto|auto|].
    eapply h_frame; [apply h_on_data|apply (tx_on_data E)|]. cbv beta. intros s s' (T & _) <-. rewrite !sending_cnt. rewrite T. reflexivity. }
  intros _. apply (h_cost _ (n + 1)); [lia|]. apply (h_bind _ n 1 _ _ (fun _ => SI None)).
  - destruct (_ =? _)%nat; [apply h_on_process|apply (h_cost _ 0); [lia|apply h_ret; tauto]].
  - intros _. destruct (_ || _); [apply h_on_sys|apply (h_cost _ 0); [lia|apply h_ret; auto]].
Qed.
Lemma k_ignore {A} (P : node -> Prop) n (m : M A) : hoare P n m (fun _ => SI None) -> hoare P n (ignore m) (fun _ => SI None).
Proof. intro H. unfold ignore. apply (h_cost _ (n + 0)); [lia|]. eapply h_bind; [exact H|]. intro a. apply h_ret. auto. Qed.
Lemma find_type_lt tab type : forall i j, find_type tab type i = Some j -> (j < i + length tab)%nat.
Proof.
  induction tab as [|m tab IH]; intros i j H; [discriminate|]. cbn [find_type] in H. cbn [length]. destruct (strn_eq 5 (m_type m) type); [injection H as <-; lia|]. apply IH in H. lia.
Qed.
Lemma h_part type on : hoare (fun s => SI None s /\ length (tab_of s) = MAXM E) 0 (set_active_critical type on) (fun _ => SI None).
Proof.
  unfold set_active_critical. apply (h_bind _ 0 0 _ _ (fun tab s => SI None s /\ length tab = MAXM E)); [apply h_gets; auto|]. intro tab.
  destruct (find_type tab type 0) as [pos|] eqn:F; [|apply h_ret; intros s [I _]; exact I]. intros k s [I L] R. apply find_type_lt in F. cbn [plus] in F. rewrite L in F. revert k s I R.
  change (hoare (SI None) 0 ((if on then sync_on pos else sync_off pos) ;;; ret ERR_OK) (fun _ => SI None)).
  apply (h_bind _ 0 0 _ _ (fun _ => SI None)); [destruct on; [apply h_sync_on, F|apply h_sync_off]|intros _; apply h_ret; auto].
Qed.
(** ** steps and histories *)
Lemma store_roomy s : store_room 0 (n_err s) -> roomy E s -> store_room (S (sending E s)) (n_err s).
Proof. unfold roomy, err_count. destruct (n_err s); cbn [store_room es_count]; [|auto]. intros [_ H] R. split; [lia|exact H]. Qed.
Lemma safe_step o s : SI None s -> WF E s -> store_room 0 (n_err s) -> sound E sizes s o ->
  match step E o s with Ret (_, s') => SI None s' /\ store_room 0 (n_err s') | Undef => False | Hang => True end.
Proof.
  intros I W R [Hr Ho]. apply store_roomy in R; [|exact Hr]. clear Hr.
  assert (forall A (P : node -> Prop) n (m : M A), hoare P n m (fun _ => SI None) -> P s -> (n <= S (sending E s))%nat -> match m s with Ret (_, s') => SI None s' /\ store_room 0 (n_err s') | Undef => False | Hang => True end) as K.
  { intros A P n m H Ps L. apply (H 0%nat s Ps). eapply store_room_le; [|exact R]. lia. }
  destruct o; cbn [step sound] in *.
  - apply (K _ _ _ _ (h_frame_rx mo id dlc data now (sending E s))); auto.
  - apply (K _ _ 1%nat _ (k_ignore _ _ _ (h_add d nr rxs txs Ho))); [|lia]. split; [exact I|]. apply W.
  - apply (K _ (SI None) 0%nat); [|exact I|lia]. apply k_ignore. unfold set_silent_awake_type_nr. change (keepsSI (tab <- gets tab_of;; match find_type_nr tab type nr 0 with Some pos => set_silent_awake E pos state | None => ret E_MODULE_NOT_FOUND end)). repeat (simple apply k_silent || k1).
  - apply (K _ _ 0%nat _ (k_ignore _ _ _ (h_change_ids type new actual))); [|lia]. auto.
  - apply (K _ _ 0%nat _ (k_ignore _ _ _ (h_type_add type d rxs txs cb Ho))); [exact I|lia].
  - apply (K _ (SI None) 0%nat); [|exact I|lia]. change (keepsSI (modify (upd_cfg (fun k => set_k_voter k v)))). k1.
  - apply (K _ (SI None) 0%nat); [|exact I|lia]. change (keepsSI (modify (upd_cfg (fun k => set_k_silcb k cb)))). k1.
  - apply (K _ (SI None) 0%nat); [|exact I|lia]. apply k_ignore. match goal with |- hoare _ _ ?m _ => change (keepsSI m) end. unfold set_image_cb. repeat k1.
  - apply (K _ (SI None) 0%nat); [|exact I|lia]. match goal with |- hoare _ _ ?m _ => change (keepsSI m) end. k1.
  - apply (K _ (SI None) 0%nat); [|exact I|lia]. match goal with |- hoare _ _ ?m _ => change (keepsSI m) end. k1.
  - apply (K _ (SI None) 0%nat); [|exact I|lia]. match goal with |- hoare _ _ ?m _ => change (keepsSI m) end. k1.
  - apply (K _ (SI None) 1%nat); [|exact I|lia]. apply h_report. intros; si_keep.
  - apply (K _ (SI None) 0%nat); [|exact I|lia]. match goal with |- hoare _ _ ?m _ => change (keepsSI m) end. unfold trigger_period. k1.
  - apply (K _ (SI None) 0%nat); [|exact I|lia]. apply k_ignore. match goal with |- hoare _ _ ?m _ => change (keepsSI m) end. unfold get_period. repeat k1.
  - apply (K _ (SI None) 0%nat); [|exact I|lia]. apply k_ignore. match goal with |- hoare _ _ ?m _ => change (keepsSI m) end. unfold set_cycle_time. repeat k1.
  - apply (K _ (SI None) 0%nat); [|exact I|lia]. apply k_ignore, k_mode.
  - apply (K _ (SI None) 0%nat); [|exact I|lia]. apply k_ignore, k_baud.
  - cbn. split; [|eapply store_room_le; [|exact R]; lia]. revert I. apply SI_keep; try reflexivity. cbn. rewrite map_set_nth, Ho. generalize (n_mem s). intro l. clear. revert addr.
    induction l as [|a l IH]; intros [|i]; cbn; auto. f_equal. apply IH.
  - apply (K _ (fun s => SI None s /\ length (tab_of s) = MAXM E) 0%nat); [|split; [exact I|apply W]|lia]. apply k_ignore, h_part.
Qed.
Lemma safe_run ops : forall s, SI None s -> WF E s -> store_room 0 (n_err s) -> sound_run E sizes s ops -> run E ops s <> Undef.
Proof.
  induction ops as [|o ops IH]; intros s I W R Hs; cbn [run]; [discriminate|]. destruct Hs as [Ho Hs]. pose proof (safe_step o s I W R Ho) as H. unfold bind.
  destruct (step E o s) as [[[] s']| |] eqn:Es; [|contradiction|discriminate]. destruct H as [I' R']. apply IH; [exact I'| |exact R'|apply Hs; reflexivity]. eapply wf_step; eauto.
Qed.
(** ** start-up *)
Definition boots (s s' : node) : Prop := k_tab (n_cfg s') = k_tab (n_cfg s) /\ k_chg (n_cfg s') = k_chg (n_cfg s) /\ n_tx s' = n_tx s /\ n_mem s' = n_mem s /\ n_err s' = n_err s /\ h_rxtab (n_hw s') = h_rxtab (n_hw s).
#[local] Instance boots_pre : Pre boots.
Proof. split; [intro; repeat split; reflexivity|]. intros a b c (A1 & A2 & A3 & A4 & A5 & A6) (B1 & B2 & B3 & B4 & B5 & B6). repeat split; congruence. Qed.
Lemma SI_booted mem st orc rate s : sizes = map (@length byte) mem -> can_init E rate (static_node E mem st orc) = Ret (ERR_OK, s) -> SI None s /\ WF E s /\ n_err s = st.
Proof.
  intros Hs H. assert (booted E s) as B by (exists mem, st, orc, rate; exact H). pose proof (HwI_booted E s B) as Hh. assert (WF E s) as W. { eapply wf_can_init; [exact H|]. apply wf_static. }
  unfold can_init in H. apply andthen_inv in H. destruct H as (s1 & H1 & H).
  assert (boots s1 s) as (A1 & A2 & A3 & A4 & A5 & A6).
  { revert H. assert (forall m, pres boots m -> forall (e:N) s1 s, m s1 = Ret (e, s) -> boots s1 s) as K by (intros; eauto).
    apply K. unfold define_obj, hw_define, msg_objs_init, sys_init, sync_init. pres_tac; repeat split; reflexivity. }
  unfold config_init in H1. minv_all. cbn in A1, A2, A3, A4, A5, A6.
  assert (forall p, exists nr, modat s p = slot0 nr) as Hm.
  { intro p. unfold modat, tab_of. rewrite A1, map_map. destruct (Nat.lt_ge_cases p (MAXM E)) as [L|L].
    - rewrite nth_map_seq by exact L. eexists. reflexivity.
    - rewrite nth_overflow by (rewrite map_length, seq_length; exact L). exists 0. reflexivity. }
  split; [|auto]. split.
  - rewrite A4. symmetry. exact Hs.
  - intro p. destruct (Hm p) as [nr ->]. cbn. unfold NOBJ. lia.
  - intros p i. destruct (Hm p) as [nr ->]. cbn. lia.
  - intros p i. destruct (Hm p) as [nr ->]. cbn. lia.
  - intros p. destruct (Hm p) as [nr ->]. cbn. auto.
  - intros p c Q. destruct (nth_in_or_default p (k_chg (n_cfg s)) None) as [Hi|Hi]; [rewrite A2 in Hi at 2; apply repeat_spec in Hi|]; rewrite Q in Hi; discriminate.
  - apply W.
  - exact Hh.
  - intros p i Li. right. left. unfold rx_mo. destruct (Hm p) as [nr ->]. unfold rxat. cbn [slot0 m_rx]. rewrite nth_repeat'; [reflexivity|exact Li].
  - intros mo p. unfold registered. rewrite A6. intros [].
  - intros n. rewrite A3. change (N.testbit 0 (N.of_nat n) = true -> (n / 4 < MAXM E)%nat /\ (n mod 4 < m_ntx (modat s (n / 4)))%nat). rewrite N.bits_0. discriminate.
  - intros p o. rewrite A3. cbn. unfold get2, zeros2. destruct (nth_in_or_default p (repeat (repeat 0 NOBJ) (MAXM E)) []) as [Hi| ->]; [|destruct o; cbn; lia].
    apply repeat_spec in Hi. rewrite Hi. destruct (nth_in_or_default o (repeat 0 NOBJ) 0) as [Ho| ->]; [|lia]. apply repeat_spec in Ho. rewrite Ho. lia.
Qed.
Lemma fresh_room s : fresh_store (n_err s) -> roomy E s -> store_room 0 (n_err s).
Proof. unfold roomy, err_count. intros [-> |[size ->]]; cbn; [auto|]. intro L. split; [lia|discriminate]. Qed.
Lemma safe_boot mem st orc rate s ops : sizes = map (@length byte) mem -> fresh_store st -> can_init E rate (static_node E mem st orc) = Ret (ERR_OK, s) -> sound_run E sizes s ops -> run E ops s <> Undef.
Proof.
  intros Hs Hf B Hr. destruct (SI_booted _ _ _ _ _ Hs B) as (I & W & Es). destruct ops as [|o ops]; [discriminate|]. apply safe_run; auto.
  apply fresh_room; [rewrite Es; exact Hf|]. apply Hr.
Qed.
Lemma safe_ends ops : forall pre s, Forall (plain E) pre -> Forall (plain E) ops -> reached E pre s -> run E ops s <> Hang.
Proof.
  induction ops as [|o ops IH]; intros pre s Fp Fo R; cbn [run]; [discriminate|]. inversion Fo as [|? ? Ho Fo']; subst. pose proof (ends_step E HE o pre s Fp R) as H. unfold bind.
  destruct (step E o s) as [[[] s']| |] eqn:Es; [|discriminate|congruence]. apply (IH (pre ++ [o])); auto.
  - apply Forall_app. split; [exact Fp|]. constructor; [exact Ho|constructor].
  - destruct R as (s0 & B & R). exists s0. split; [exact B|]. revert R Es. clear. revert s0. induction pre as [|q pre IHp]; intros s0 R Es; cbn [run app] in *.
    + injection R as ->. unfold bind. rewrite Es. reflexivity.
    + unfold bind in *. destruct (step E q s0) as [[[] s1]| |]; try discriminate. apply IHp; auto.
Qed.
End Safe.
