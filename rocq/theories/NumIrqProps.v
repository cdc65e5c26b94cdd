(** C91: a module's number is changed by the application while requests and process data arrive. *)
From Verif Require Import Words NodeModel NumIrqModel NumIrqSpec.
From Coq Require Import Sorting.Sorted.

Lemma tx_ident nr i : valid_nr nr -> (i < 4)%nat -> can_ident BASE_TX nr i = tx_id nr i.
Proof. intros H I. unfold can_ident, tx_id, BASE_TX, u16, valid_nr in *. lia. Qed.
Lemma rx_ident nr i : valid_nr nr -> (i < 4)%nat -> can_ident BASE_RX nr i = rx_id nr i.
Proof. intros H I. unfold can_ident, rx_id, BASE_RX, u16, valid_nr in *. lia. Qed.
Lemma rx_decode nr i : valid_nr nr -> (i < 4)%nat -> rx_nr (rx_id nr i) = nr.
Proof. intros H I. unfold rx_nr, rx_id, u16, valid_nr in *. lia. Qed.

(** ** the state after some accesses; interrupts do not change it *)
Definition accs (new : N) (silent : bool) (l : list nacc) (s : nm) : nm := fold_left (fun s a => naccess new silent a s) l s.
Lemma nexec_eq chk n new silent irq : forall prog k s,
  nexec chk n new silent irq k prog s =
  (accs new silent prog s,
   flat_map (fun p => flat_map (nserve chk n (accs new silent (firstn p prog) s)) (irq (k + p)%nat)) (seq 0 (S (length prog)))).
Proof.
  induction prog as [|a r IH]; intros k s.
  - cbn. rewrite app_nil_r, Nat.add_0_r. reflexivity.
  - cbn [nexec]. rewrite IH. cbn [length]. f_equal.
    change (seq 0 (S (S (length r)))) with (0%nat :: seq 1 (S (length r))). cbn [flat_map firstn]. rewrite Nat.add_0_r. cbn [accs fold_left].
    f_equal. rewrite <- seq_shift, flat_map_concat_map, flat_map_concat_map, map_map. f_equal. apply map_ext. intro p.
    rewrite Nat.add_succ_r. reflexivity.
Qed.

Definition nacc_eq (a b : nacc) : {a = b} + {a <> b}.
Proof. decide equality; apply Nat.eq_dec. Defined.
Lemma accs_num new silent l s : m_num (accs new silent l s) = if in_dec nacc_eq NNr l then new else m_num s.
Proof.
  revert s. induction l as [|a l IH]; intro s; [reflexivity|]. cbn [accs fold_left]. fold (accs new silent l (naccess new silent a s)).
  rewrite IH. destruct (in_dec _ NNr l) as [I|I]; destruct (in_dec _ NNr (a :: l)) as [J|J]; try reflexivity.
  - exfalso. apply J. right. exact I.
  - destruct J as [->|J]; [reflexivity|contradiction].
  - destruct a; try reflexivity. exfalso. apply J. left. reflexivity.
Qed.
Lemma accs_txid_in new silent i : forall l s, In (NId i) l -> m_txid (accs new silent l s) i = can_ident BASE_TX new i.
Proof.
  induction l as [|a l IH] using rev_ind; intros s H; [destruct H|]. unfold accs. rewrite fold_left_app. cbn [fold_left].
  fold (accs new silent l s). apply in_app_or in H.
  destruct a as [|i'| i'|j|i']; cbn [naccess m_txid]; try (destruct H as [H|[H|[]]]; [apply IH; exact H|discriminate]).
  unfold upd_at. destruct (i =? i')%nat eqn:E; [apply Nat.eqb_eq in E; subst; reflexivity|].
  apply Nat.eqb_neq in E. destruct H as [H|[H|[]]]; [apply IH; exact H|injection H as ->; contradiction].
Qed.
Lemma accs_txid_out new silent i : forall l s, ~ In (NId i) l -> m_txid (accs new silent l s) i = m_txid s i.
Proof.
  induction l as [|a l IH]; intros s H; [reflexivity|]. cbn [accs fold_left]. fold (accs new silent l (naccess new silent a s)).
  rewrite IH by (intro X; apply H; right; exact X). destruct a as [|i'| i'|j|i']; cbn [naccess m_txid]; try reflexivity.
  unfold upd_at. destruct (i =? i')%nat eqn:E; [apply Nat.eqb_eq in E; subst; exfalso; apply H; left; reflexivity|reflexivity].
Qed.
Lemma accs_rxid_in new silent i : forall l s, In (NRx i) l -> m_rxid (accs new silent l s) i = can_ident BASE_RX new i.
Proof.
  induction l as [|a l IH] using rev_ind; intros s H; [destruct H|]. unfold accs. rewrite fold_left_app. cbn [fold_left].
  fold (accs new silent l s). apply in_app_or in H.
  destruct a as [|i'| i'|i'|j]; cbn [naccess m_rxid]; try (destruct H as [H|[H|[]]]; [apply IH; exact H|discriminate]).
  unfold upd_at. destruct (i =? i')%nat eqn:E; [apply Nat.eqb_eq in E; subst; reflexivity|].
  apply Nat.eqb_neq in E. destruct H as [H|[H|[]]]; [apply IH; exact H|injection H as ->; contradiction].
Qed.
Lemma accs_rxid_out new silent i : forall l s, ~ In (NRx i) l -> m_rxid (accs new silent l s) i = m_rxid s i.
Proof.
  induction l as [|a l IH]; intros s H; [reflexivity|]. cbn [accs fold_left]. fold (accs new silent l (naccess new silent a s)).
  rewrite IH by (intro X; apply H; right; exact X). destruct a as [|i'| i'|i'|j]; cbn [naccess m_rxid]; try reflexivity.
  unfold upd_at. destruct (i =? i')%nat eqn:E; [apply Nat.eqb_eq in E; subst; exfalso; apply H; left; reflexivity|reflexivity].
Qed.
(** the flags of an awake module stay set *)
Lemma accs_flag_awake new i : forall l s, m_flag s i = true -> m_flag (accs new false l s) i = true.
Proof.
  induction l as [|a l IH]; intros s H; [exact H|]. cbn [accs fold_left]. fold (accs new false l (naccess new false a s)). apply IH.
  destruct a; cbn [naccess m_flag]; unfold upd_at; try exact H; destruct (i =? _)%nat; auto.
Qed.

(** ** positions in the program *)
Lemma in_tx_part j : forall n a q, In (NId j) (firstn q (flat_map (fun i => [NId i; NFlag i]) (seq a n))) <-> (a <= j < a + n /\ 2 * (j - a) < q)%nat.
Proof.
  induction n as [|n IH]; intros a q.
  - cbn. rewrite firstn_nil. split; [intros []|lia].
  - cbn [seq flat_map app]. destruct q as [|[|q]].
    + cbn. split; [intros []|lia].
    + cbn. split.
      * intros [H|[]]. injection H as ->. lia.
      * intros H. left. f_equal. lia.
    + cbn [firstn In]. rewrite IH. split.
      * intros [H|[H|H]]; [injection H as ->; lia|discriminate|lia].
      * intros H. destruct (Nat.eq_dec a j) as [->|N]; [left; reflexivity|right; right; lia].
Qed.
Lemma in_firstn {A} (x : A) : forall q l, In x (firstn q l) -> In x l.
Proof. induction q as [|q IH]; intros [|y l] H; cbn in *; try contradiction. destruct H as [H|H]; [left; exact H|right; apply IH; exact H]. Qed.
Lemma in_prog_id n m p j : In (NId j) (firstn p (nprog n m)) <-> (j < Nat.min n (p / 2))%nat.
Proof.
  unfold nprog. destruct p as [|p].
  - cbn. split; [intros []|]. intro H. change (0 / 2)%nat with 0%nat in H. lia.
  - cbn [firstn In]. rewrite firstn_app, in_app_iff, in_tx_part.
    assert (Z : ~ In (NId j) (firstn (p - length (flat_map (fun i => [NId i; NFlag i]) (seq 0 n))) (map NRx (seq 0 m) ++ map NEnd (seq 0 n)))).
    { intro H. apply in_firstn in H. apply in_app_or in H. destruct H as [H|H]; apply in_map_iff in H; destruct H as (? & ? & _); discriminate. }
    split.
    + intros [H|[H|H]]; [discriminate|lia|contradiction].
    + intros H. right. left. lia.
Qed.
Lemma in_prog_nr n m p : In NNr (firstn p (nprog n m)) <-> (0 < p)%nat.
Proof.
  destruct p as [|p]; [split; [intros []|lia]|]. split; [lia|]. intros _. left. reflexivity.
Qed.

(** ** theorems *)
(** An awake module: every cycle during the change has all its frames, in order, each under the old or the new number; once an
    object has changed to the new number it stays there. *)
Theorem C91_cycles_partial : forall chk n m old new irq s, valid_nr old -> valid_nr new -> (n <= 4)%nat ->
  configured n m old false s ->
  exists ks, Sorted le ks /\ Forall (fun k => (k <= n)%nat) ks /\
    cycles (snd (change chk n m new false irq s)) = map (cycle old new n) ks.
Proof.
  intros chk n m old new irq s Vo Vn N4 [C1 [C2 C3]]. unfold change. rewrite nexec_eq. cbn [snd]. cbn [Nat.add].
  set (len := S (length (nprog n m))). clearbody len.
  assert (ONE : forall p, flat_map (fun e => match e with NSent l => [l] | _ => [] end)
                            (flat_map (nserve chk n (accs new false (firstn p (nprog n m)) s)) (irq p)) =
                          map (cycle old new n) (repeat (Nat.min n (p / 2)) (length (filter (fun q => match q with NRequest => true | _ => false end) (irq p))))).
  { intro p. set (sp := accs new false (firstn p (nprog n m)) s).
    assert (CY : map (fun i => (i, m_txid sp i)) (filter (m_flag sp) (seq 0 n)) = cycle old new n (Nat.min n (p / 2))).
    { assert (FL : filter (m_flag sp) (seq 0 n) = seq 0 n).
      { assert (G : forall l, (forall i, In i l -> (i < n)%nat) -> filter (m_flag sp) l = l).
        { induction l as [|i l IH]; intro H; [reflexivity|]. cbn [filter]. unfold sp at 1. rewrite accs_flag_awake.
          - f_equal. apply IH. intros x X. apply H. right. exact X.
          - apply (C2 i). apply H. left. reflexivity. }
        apply G. intros i I. apply in_seq in I. lia. }
      rewrite FL. unfold cycle. apply map_ext_in. intros i I. apply in_seq in I. f_equal.
      destruct (i <? Nat.min n (p / 2))%nat eqn:E.
      - apply Nat.ltb_lt in E. unfold sp. rewrite accs_txid_in by (apply in_prog_id; exact E). apply tx_ident; [exact Vn|lia].
      - apply Nat.ltb_ge in E. unfold sp. rewrite accs_txid_out; [apply C2; lia|]. intro X. apply in_prog_id in X. lia. }
    induction (irq p) as [|q l IH]; [reflexivity|]. cbn [flat_map]. rewrite flat_map_app, IH. destruct q as [|j id].
    - cbn [nserve flat_map app filter length repeat map]. rewrite CY. reflexivity.
    - cbn [nserve filter]. destruct (id =? m_rxid sp j); [|reflexivity]. destruct (chk && _); reflexivity. }
  exists (flat_map (fun p => repeat (Nat.min n (p / 2)) (length (filter (fun q => match q with NRequest => true | _ => false end) (irq p)))) (seq 0 len)).
  split; [|split].
  - assert (G : forall cnt a, Sorted le (flat_map (fun p => repeat (Nat.min n (p / 2)) (length (filter (fun q => match q with NRequest => true | _ => false end) (irq p)))) (seq a cnt)) /\
                             Forall (fun k => (Nat.min n (a / 2) <= k)%nat) (flat_map (fun p => repeat (Nat.min n (p / 2)) (length (filter (fun q => match q with NRequest => true | _ => false end) (irq p)))) (seq a cnt))).
    { induction cnt as [|cnt IH]; intro a; [split; constructor|]. cbn [seq flat_map]. destruct (IH (S a)) as [S1 F1].
      assert (F2 : Forall (fun k => (Nat.min n (a / 2) <= k)%nat) (flat_map (fun p => repeat (Nat.min n (p / 2)) (length (filter (fun q => match q with NRequest => true | _ => false end) (irq p)))) (seq (S a) cnt))).
      { eapply Forall_impl; [|exact F1]. cbn beta. intros k K. assert (a / 2 <= S a / 2)%nat by lia. lia. }
      induction (length (filter _ (irq a))) as [|c IHc]; [split; assumption|]. cbn [repeat app]. destruct IHc as [S3 F3]. split.
      - constructor; [exact S3|]. destruct F3; constructor; assumption.
      - constructor; [lia|exact F3]. }
    apply (G len 0%nat).
  - apply Forall_forall. intros k K. apply in_flat_map in K. destruct K as (p & _ & K). apply repeat_spec in K. lia.
  - unfold cycles. induction (seq 0 len) as [|p l IH]; [reflexivity|]. cbn [flat_map]. rewrite flat_map_app, map_app, IH, ONE. reflexivity.
Qed.
Print Assumptions C91_cycles_partial.

(** Data given to the application during the change were sent under the new number; data under the old number that the
    controller still receives are refused. (With the check of the number.) *)
Theorem C91_data_partial : forall n m old new silent irq s j id, valid_nr old -> valid_nr new -> (m <= 4)%nat -> rx_ok m irq ->
  configured n m old silent s ->
  (In (NTaken j id) (snd (change true n m new silent irq s)) -> id = rx_id new j \/ (In (NData j id) (irq 0%nat) /\ id = rx_id old j)) /\
  (In (NRefused j id) (snd (change true n m new silent irq s)) -> id = rx_id old j).
Proof.
  intros n m old new silent irq s j id Vo Vn M4 RX [C1 [C2 C3]]. unfold change. rewrite nexec_eq. cbn [snd]. cbn [Nat.add].
  assert (ANY : forall e, e = NTaken j id \/ e = NRefused j id ->
    In e (flat_map (fun p => flat_map (nserve true n (accs new silent (firstn p (nprog n m)) s)) (irq p)) (seq 0 (S (length (nprog n m))))) ->
    exists p, In (NData j id) (irq p) /\ id = m_rxid (accs new silent (firstn p (nprog n m)) s) j /\
      (rx_nr id = m_num (accs new silent (firstn p (nprog n m)) s) <-> e = NTaken j id)).
  { intros e He I. apply in_flat_map in I. destruct I as (p & _ & I). apply in_flat_map in I. destruct I as (q & Q & I).
    exists p. destruct q as [|j' id']; cbn [nserve] in I; [destruct I as [<-|[]]; destruct He; discriminate|].
    destruct (id' =? m_rxid _ j') eqn:E; [|destruct I]. apply N.eqb_eq in E. cbn [andb] in I.
    destruct (rx_nr id' =? m_num _) eqn:E2; cbn [negb] in I; destruct I as [<-|[]].
    - apply N.eqb_eq in E2. destruct He as [He|He]; [|discriminate]. injection He as -> ->. repeat split; auto.
    - apply N.eqb_neq in E2. destruct He as [He|He]; [discriminate|]. injection He as -> ->. repeat split; auto; [contradiction|discriminate]. }
  assert (RXID : forall p, In (NData j id) (irq p) ->
    m_rxid (accs new silent (firstn p (nprog n m)) s) j = rx_id new j \/ m_rxid (accs new silent (firstn p (nprog n m)) s) j = rx_id old j).
  { intros p I. specialize (RX p j id I).
    destruct (in_dec nacc_eq (NRx j) (firstn p (nprog n m))) as [K|K].
    - left. rewrite accs_rxid_in by exact K. apply rx_ident; [exact Vn|lia].
    - right. rewrite accs_rxid_out by exact K. apply C3. exact RX. }
  split; intro I; (apply ANY in I; [|auto]); destruct I as (p & P1 & P2 & P3); pose proof (RX p j id P1) as J4;
  destruct (RXID p P1) as [R|R]; rewrite R in P2.
  - left. exact P2.
  - rewrite accs_num in P3. destruct (in_dec _ NNr _) as [K|K].
    + rewrite P2, rx_decode in P3 by (auto; lia). destruct P3 as [_ P3]. specialize (P3 eq_refl). left. rewrite <- P3. exact P2.
    + assert (p = 0)%nat by (destruct p; [reflexivity|exfalso; apply K; apply in_prog_nr; lia]). subst p. auto.
  - exfalso. rewrite accs_num in P3. rewrite P2, rx_decode in P3 by (auto; lia). destruct (in_dec _ NNr _) as [K|K].
    + destruct P3 as [P3 _]. specialize (P3 eq_refl). discriminate.
    + assert (p = 0)%nat by (destruct p; [reflexivity|exfalso; apply K; apply in_prog_nr; lia]). subst p.
      cbn [firstn accs fold_left] in R. rewrite C3 in R by exact J4.
      assert (old = new) by (unfold rx_id, valid_nr in *; lia). destruct P3 as [P3 _]. rewrite C1 in P3.
      specialize (P3 (eq_sym H)). discriminate.
  - exact P2.
Qed.
Print Assumptions C91_data_partial.

(** When the change is over everything is under the new number, whatever arrived meanwhile. *)
Lemma ends_flag new silent i : forall l s, In i l -> m_flag (accs new silent (map NEnd l) s) i = negb silent.
Proof.
  induction l as [|a l IH] using rev_ind; intros s H; [destruct H|]. unfold accs. rewrite map_app, fold_left_app. cbn [map fold_left].
  fold (accs new silent (map NEnd l) s). cbn [naccess m_flag]. unfold upd_at. destruct (i =? a)%nat eqn:E; [reflexivity|].
  apply Nat.eqb_neq in E. apply in_app_or in H. destruct H as [H|[H|[]]]; [apply IH; exact H|congruence].
Qed.
Theorem C91_after_partial : forall chk n m old new silent irq s, valid_nr new -> (n <= 4)%nat -> (m <= 4)%nat ->
  configured n m old silent s -> configured n m new silent (fst (change chk n m new silent irq s)).
Proof.
  intros chk n m old new silent irq s Vn N4 M4 _. unfold change. rewrite nexec_eq. cbn [fst]. split; [|split].
  - rewrite accs_num. destruct (in_dec _ NNr _) as [|K]; [reflexivity|]. exfalso. apply K. left. reflexivity.
  - intros i I. split.
    + rewrite accs_txid_in; [apply tx_ident; [exact Vn|lia]|]. right. apply in_or_app. left. apply in_flat_map. exists i. split; [apply in_seq; lia|left; reflexivity].
    + unfold nprog. rewrite app_comm_cons, app_assoc. unfold accs. rewrite fold_left_app. apply ends_flag. apply in_seq. lia.
  - intros j J. rewrite accs_rxid_in; [apply rx_ident; [exact Vn|lia]|]. right. apply in_or_app. right. apply in_or_app. left.
    apply in_map. apply in_seq. lia.
Qed.
Print Assumptions C91_after_partial.

(** ** what does not hold *)
Definition cn0 (n m : nat) (nr : N) (silent : bool) : nm := Nm nr (tx_id nr) (fun _ => negb silent) (rx_id nr).
Lemma cn0_ok n m nr silent : configured n m nr silent (cn0 n m nr silent).
Proof. repeat split. Qed.
Definition at_access (k : nat) (q : nirq) : nat -> list nirq := fun p => if (p =? k)%nat then [q] else [].

Lemma once chk n m new silent k q s : (k <= length (nprog n m))%nat ->
  snd (change chk n m new silent (at_access k q) s) = nserve chk n (accs new silent (firstn k (nprog n m)) s) q.
Proof.
  intro K. unfold change. rewrite nexec_eq. cbn [snd Nat.add].
  set (f := fun p => nserve chk n (accs new silent (firstn p (nprog n m)) s) q).
  change (nserve chk n (accs new silent (firstn k (nprog n m)) s) q) with (f k).
  assert (G : forall cnt a, (a <= k < a + cnt)%nat ->
    flat_map (fun p => flat_map (nserve chk n (accs new silent (firstn p (nprog n m)) s)) (at_access k q p)) (seq a cnt) = f k).
  { assert (Z : forall cnt a, (k < a)%nat ->
      flat_map (fun p => flat_map (nserve chk n (accs new silent (firstn p (nprog n m)) s)) (at_access k q p)) (seq a cnt) = []).
    { induction cnt as [|cnt IH]; intros a H; [reflexivity|]. cbn [seq flat_map]. rewrite IH by lia. unfold at_access at 1.
      replace (a =? k)%nat with false by (symmetry; apply Nat.eqb_neq; lia). reflexivity. }
    induction cnt as [|cnt IH]; intros a H; [lia|]. cbn [seq flat_map]. unfold at_access at 1. destruct (a =? k)%nat eqn:E.
    - apply Nat.eqb_eq in E. subst a. rewrite Z by lia. cbn [flat_map]. rewrite !app_nil_r. reflexivity.
    - apply Nat.eqb_neq in E. cbn [flat_map app]. apply IH. lia. }
  apply G. lia.
Qed.
Lemma prog_len n m : length (nprog n m) = (1 + 2 * n + m + n)%nat.
Proof.
  unfold nprog. cbn [length]. rewrite !app_length, !map_length, !seq_length.
  assert (G : forall k a, length (flat_map (fun i => [NId i; NFlag i]) (seq a k)) = (2 * k)%nat).
  { induction k as [|k IH]; intro a; [reflexivity|]. cbn [seq flat_map app length]. rewrite IH. lia. }
  rewrite G. lia.
Qed.

(** every module with at least two transmit objects can answer one request partly under the old, partly under the new number *)
Theorem C91_mixed_refuted : forall chk n m old new, valid_nr old -> valid_nr new -> (2 <= n <= 4)%nat ->
  exists irq s, configured n m old false s /\
    exists l, In l (cycles (snd (change chk n m new false irq s))) /\ In (0%nat, tx_id new 0) l /\ In (1%nat, tx_id old 1) l.
Proof.
  intros chk n m old new Vo Vn Hn. exists (at_access 2 NRequest), (cn0 n m old false). split; [apply cn0_ok|].
  rewrite once by (rewrite prog_len; lia).
  assert (F : firstn 2 (nprog n m) = [NNr; NId 0]) by (destruct n as [|n']; [lia|reflexivity]). rewrite F.
  eexists. split; [left; reflexivity|]. destruct n as [|[|n']]; [lia|lia|]. cbn [seq filter accs fold_left naccess cn0 m_flag map m_txid negb In].
  unfold upd_at. cbn [Nat.eqb]. rewrite tx_ident by (auto; lia). auto.
Qed.
Print Assumptions C91_mixed_refuted.

(** a silent module transmits when a request arrives during the change *)
Theorem C91_silent_refuted : forall chk n m old new, valid_nr old -> valid_nr new -> (1 <= n <= 4)%nat ->
  exists irq s, configured n m old true s /\ In [(0%nat, tx_id new 0)] (cycles (snd (change chk n m new true irq s))).
Proof.
  intros chk n m old new Vo Vn Hn. exists (at_access 3 NRequest), (cn0 n m old true). split; [apply cn0_ok|].
  rewrite once by (rewrite prog_len; lia).
  assert (F : firstn 3 (nprog n m) = [NNr; NId 0; NFlag 0]) by (destruct n as [|n']; [lia|reflexivity]). rewrite F.
  left. destruct n as [|n']; [lia|]. cbn [seq filter accs fold_left naccess cn0 m_flag negb]. unfold upd_at at 1. cbn [Nat.eqb].
  assert (Z : forall l, (forall i, In i l -> i <> 0%nat) -> filter (upd_at (fun _ : nat => false) 0 true) l = []).
  { induction l as [|i l IH]; intro H; [reflexivity|]. cbn [filter]. unfold upd_at at 1. destruct (i =? 0)%nat eqn:E.
    - apply Nat.eqb_eq in E. exfalso. apply (H i); [left; reflexivity|exact E].
    - apply IH. intros x X. apply H. right. exact X. }
  rewrite Z by (intros i I; apply in_seq in I; lia). cbn [map m_txid]. unfold upd_at. cbn [Nat.eqb]. rewrite tx_ident by (auto; lia). reflexivity.
Qed.
Print Assumptions C91_silent_refuted.

(** process data that the master still sends to the old number, and that the controller still receives, are refused with an
    error as soon as the number has been written *)
Theorem C91_lost_refuted : forall n m old new silent, valid_nr old -> valid_nr new -> old <> new -> (1 <= m <= 4)%nat ->
  exists irq s, configured n m old silent s /\ snd (change true n m new silent irq s) = [NRefused 0 (rx_id old 0)].
Proof.
  intros n m old new silent Vo Vn D Hm. exists (at_access 1 (NData 0 (rx_id old 0))), (cn0 n m old silent). split; [apply cn0_ok|].
  rewrite once by (rewrite prog_len; lia). change (firstn 1 (nprog n m)) with [NNr].
  cbn [accs fold_left naccess cn0 nserve m_rxid m_num]. rewrite N.eqb_refl, rx_decode by (auto; lia).
  apply N.eqb_neq in D. rewrite D. reflexivity.
Qed.
Print Assumptions C91_lost_refuted.

(** ** examples *)
Example C91_run : cycles (snd (change true 3 2 20 false (fun k => if (k =? 4)%nat then [NRequest; NData 1 548] else if (k =? 9)%nat then [NRequest] else []) (cn0 3 2 10 false)))
  = [[(0%nat, tx_id 20 0); (1%nat, tx_id 20 1); (2%nat, tx_id 10 2)]; [(0%nat, tx_id 20 0); (1%nat, tx_id 20 1); (2%nat, tx_id 20 2)]].
Proof. reflexivity. Qed.
Example C91_hyp : valid_nr 10 /\ valid_nr 20 /\ configured 3 2 10 false (cn0 3 2 10 false) /\ rx_ok 2 (at_access 9 (NData 1 (rx_id 20 1))) /\
  In (NTaken 1 (rx_id 20 1)) (snd (change true 3 2 20 false (at_access 9 (NData 1 (rx_id 20 1))) (cn0 3 2 10 false))).
Proof.
  split; [unfold valid_nr; lia|]. split; [unfold valid_nr; lia|]. split; [apply cn0_ok|]. split.
  - intros k j id H. unfold at_access in H. destruct (k =? 9)%nat; [|destruct H]. destruct H as [H|[]]. injection H as <- _. lia.
  - vm_compute. left. reflexivity.
Qed.
