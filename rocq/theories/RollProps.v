(** C104: orders made from the answers to a status request. *)
From Verif Require Import Words WordsFacts Bits ErrModel NodeModel NodeLib NodeInv NodeSpec NodeHw NodeSysP NodeTxP NodeCnt NodeNr NodeMo NodeCfg NodeUseSpec NodeUse NodeEx CommSpec CommProps RollSpec.

(** the request changes neither configuration nor filters *)
Definition cfg_hw (a c : node) : Prop := n_cfg c = n_cfg a /\ n_hw c = n_hw a.
#[local] Instance pre_cfg_hw : Pre cfg_hw.
Proof. split; unfold cfg_hw; [auto|intros a c d [] []; split; congruence]. Qed.
Lemma roll_keeps E pre mo now s s' : reached E pre s -> sys_mo E mo = true ->
  step E (OpFrame mo (sys_rx_id 1) 8 [1;0;0;0;0;0;0;0] now) s = Ret (tt, s') -> cfg_hw s s' /\ (nmod s = 0%nat -> n_log s' = n_log s).
Proof.
  intros R Hm H. eapply sys_step in H; eauto. change (id_nr (sys_rx_id 1) =? 1) with true in H. cbv iota in H. destruct (Nat.eqb_spec (nmod s) 0) as [Z|Z].
  - destruct H as (r & -> & _). split; [split; reflexivity|reflexivity].
  - split; [|congruence]. destruct H as (e & s1 & H1 & H2). apply (@pre_trans cfg_hw _ s s1 s'); [|refine (pres_report_if cfg_hw e _ _ _ _ H2); intros; split; reflexivity].
    unfold sys_cmd in H1. mbind H1 as n s0 H0. apply gets_inv in H0. destruct H0 as [-> ->]. change (cmd_of (b [1;0;0;0;0;0;0;0] 0)) with CStatus in H1. cbv iota in H1.
    mbind H1 as z s0 H0. apply gets_inv in H0. destruct H0 as [-> ->]. mbind H1 as u s2 H3. apply (@pre_trans cfg_hw _ s s2 s1).
    + destruct (z_first (n_sys s)); [apply ret_inv in H3; destruct H3 as [_ ->]; split; reflexivity|].
      mbind H3 as u3 s3 H4. apply modify_inv in H4. unfold emit in H3. apply modify_inv in H3. subst. split; reflexivity.
    + refine (pres_status_rest E cfg_hw (fun _ => True) _ _ _ _ true 0%nat (nmod s) _ _ _ H1); intros; try exact I; split; reflexivity.
Qed.
Lemma app_self {A} (l x : list A) : l = l ++ x -> x = [].
Proof. intro H. apply (app_inv_head l). rewrite app_nil_r. symmetry. exact H. Qed.
Lemma same_cfg E s s' : cfg_hw s s' -> tab_of s' = tab_of s /\ nmod s' = nmod s /\ (forall p, modat s' p = modat s p) /\ (forall p, awake s' p = awake s p) /\ (forall nr, hears E s' nr <-> hears E s nr).
Proof.
  intros [C W]. assert (tab_of s' = tab_of s) as T by (unfold tab_of; rewrite C; reflexivity). split; [exact T|]. split; [unfold nmod; rewrite C; reflexivity|].
  split; [intro; unfold modat; rewrite T; reflexivity|]. split; [intro; unfold awake, silat; rewrite C; reflexivity|]. intro nr. unfold hears, passes. rewrite W. tauto.
Qed.
Lemma roll_station now c c1 : works c -> numbered c -> receives (sys_rx_id 1) [1;0;0;0;0;0;0;0] now c c1 ->
  st_env c1 = st_env c /\ cfg_hw (st_node c) (st_node c1) /\
  forall f, answer c c1 f -> exists q, (q < nmod (st_node c))%nat /\ is_awake c q = true /\ f = answers_as c q.
Proof.
  intros (HE & W & pre & R) (N1 & N2 & N3) (Q & H). split; [exact Q|]. destruct c as [E s], c1 as [E1 s1]. unfold is_awake, answers_as in *. cbn [st_env st_node] in *. subst E1.
  destruct H as [(mo & Hm & _ & H)|(_ & ->)].
  2: { split; [split; reflexivity|]. intros f (new & L & Hf & _). cbn [st_node] in L. apply app_self in L. subst new. destruct Hf. }
  pose proof (roll_keeps _ _ _ _ _ _ R Hm H) as [K Z]. split; [exact K|]. intros f (new & L & Hf & F4). cbn [st_node] in L.
  destruct (Nat.eq_dec (nmod s) 0) as [Z0|Z0]. { rewrite (Z Z0) in L. apply app_self in L. subst new. destruct Hf. }
  eapply status_request with (l := seq 0 (nmod s)) in H; eauto; [|left; split; [reflexivity|auto]]. destruct H as (new' & L' & S & _). rewrite L in L'. apply app_inv_head in L'. subst new'.
  rewrite S in Hf. apply in_app_or in Hf. destruct Hf as [Hf|Hf].
  - destruct (listen_only s); [destruct Hf|]. unfold of_awake in Hf. apply in_flat_map in Hf. destruct Hf as (q & Hq & Hf). destruct (awake s q) eqn:A; [|destruct Hf]. destruct Hf as [<-|[]]. apply in_seq in Hq. exists q. split; [lia|]. auto.
  - apply in_flat_map in Hf. destruct Hf as (e & _ & Hf). unfold error_tx in Hf. destruct (speaks s (error_nr s e)); [|destruct Hf]. destruct Hf as [<-|[]]. cbn [snd] in F4. unfold error_frame in F4. discriminate F4.
Qed.

(** what an answer says *)
Lemma answer_number c q : 2 <= number c q <= 128 -> its_number (answers_as c q) = number c q.
Proof. intro H. unfold its_number, answers_as, status_tx, id_nr, sys_tx_id, number in *. cbn [fst]. lia. Qed.
Lemma answer_data c q : snd (answers_as c q) = [4] ++ type4 (m_type (modat (st_node c) q)) ++ [byte_n (serial c) 2; byte_n (serial c) 1; byte_n (serial c) 0].
Proof. reflexivity. Qed.
Lemma type4_len t : exists w x y z, type4 t = [w; x; y; z].
Proof. unfold type4. cbn [seq map]. do 4 eexists. reflexivity. Qed.
Lemma serial_bytes n : n < 16777216 -> byte_n n 2 * 65536 + byte_n n 1 * 256 + byte_n n 0 = n /\ byte_n n 2 < 256 /\ byte_n n 1 < 256 /\ byte_n n 0 < 256.
Proof.
  intro H. unfold byte_n. change (2 ^ (8 * 2)) with 65536. change (2 ^ (8 * 1)) with 256. change (2 ^ (8 * 0)) with 1. rewrite N.div_1_r. lia.
Qed.
Lemma answer_serial_of c q f now new : f = answers_as c q -> serial c < 16777216 -> a_serial (renumber f new now) = serial c.
Proof.
  intros -> H. unfold renumber. cbn [a_serial]. rewrite answer_data. destruct (type4_len (m_type (modat (st_node c) q))) as (w & x & y & z & ->). cbn [app]. unfold byte_at. cbn [nth]. apply (serial_bytes _ H).
Qed.
Lemma order_bytes c q w now i : (1 <= i)%nat -> byte_at (order_data (Order (answers_as c q) w now)) i = byte_at (snd (answers_as c q)) i.
Proof. intro H. unfold order_data. cbn [o_to o_wish]. rewrite answer_data. destruct i; [lia|]. reflexivity. Qed.
Lemma order_serial E c q w now : serial c < 16777216 -> has_serial E (order_data (Order (answers_as c q) w now)) = (SERIAL E =? serial c).
Proof.
  intro H. unfold has_serial. rewrite !order_bytes by lia. rewrite answer_data. destruct (type4_len (m_type (modat (st_node c) q))) as (t & x & y & z & ->). cbn [app]. unfold byte_at. cbn [nth].
  destruct (serial_bytes _ H) as (S & B2 & B1 & B0). rewrite !N.mod_small by assumption. rewrite S. reflexivity.
Qed.
Lemma strn_eq_cpy n : forall t r, strn_eq n t (strn_cpy n t ++ r) = true.
Proof.
  induction n as [|n IH]; intros t r; [reflexivity|]. cbn [strn_cpy]. destruct (N.eqb_spec (hd 0 t) 0) as [Z|Z].
  - cbn [strn_eq repeat app hd tl]. rewrite Z. reflexivity.
  - cbn [strn_eq app hd tl]. rewrite N.eqb_refl. apply N.eqb_neq in Z. rewrite Z. apply IH.
Qed.
Lemma order_type c q w now : has_type (st_node c) q (order_data (Order (answers_as c q) w now)) = true.
Proof.
  unfold has_type, order_data. cbn [o_to tl]. rewrite answer_data. cbn [skipn app]. unfold type4. rewrite <- strn_cpy_type. apply strn_eq_cpy.
Qed.
Definition wished (w : wish) : N := match w with Sleep => SILENT | Wake => AWAKE end.
Definition wished_awake (w : wish) : bool := match w with Sleep => false | Wake => true end.

(** one order: the station whose module answered *)
Lemma order_own c q w now c' : works c -> numbered c -> (q < nmod (st_node c))%nat ->
  receives (order_id (Order (answers_as c q) w now)) (order_data (Order (answers_as c q) w now)) now c c' ->
  st_env c' = st_env c /\ numbered c' /\ nmod (st_node c') = nmod (st_node c) /\ (forall p, answers_as c' p = answers_as c p) /\
  is_awake c' q = wished_awake w /\ (forall p, p <> q -> is_awake c' p = is_awake c p).
Proof.
  intros (HE & W & pre & R) (N1 & N2 & N3) Lq (Q & H). split; [exact Q|]. destruct (N3 q Lq) as (Rq & Hq).
  assert (order_id (Order (answers_as c q) w now) = sys_rx_id (number c q)) as I by (unfold order_id; cbn [o_to]; rewrite answer_number by exact Rq; reflexivity). rewrite I in H.
  destruct H as [(mo & Hm & _ & H)|(H & _)]; [|exfalso; apply (H MO_SYS1); [reflexivity|apply Hq]].
  assert (id_nr (sys_rx_id (number c q)) = number c q) as In by (unfold id_nr, sys_rx_id; lia).
  assert (silent_cmd (byte_at (order_data (Order (answers_as c q) w now)) 0) = Some (wished w)) as Hc by (destruct w; reflexivity).
  eapply silent_message in H; [|exact R|exact Hm|exact Hc|lia]. rewrite In in H. unfold number in H at 1.
  assert (nmod (st_node c) <= length (tab_of (st_node c)))%nat as Lt. { destruct (WF_reached _ _ _ R) as ((Lt & _) & _). change (length (tab_of (st_node c))) with (length (k_tab (n_cfg (st_node c)))). rewrite Lt. eapply nmod_le; eauto. }
  rewrite entry_own in H; [|exact Lq|lia|exact N2]. rewrite order_serial, order_type in H by exact W. unfold serial in H. rewrite N.eqb_refl in H. cbn [andb] in H.
  assert (length (tab_of (st_node c')) = length (tab_of (st_node c))) as Tl. { pose proof (NodeNum.same_silent _ m_nr nr_base _ _ _ _ _ H) as X. unfold NodeNum.same_f in X. rewrite <- (map_length m_nr), X. apply map_length. } eapply silent_awake_others_reached in H; [|exact R]. destruct H as (A & B & C & _ & _ & _ & D & F & G). specialize (D eq_refl).
  assert (forall p, m_nr (modat (st_node c') p) = m_nr (modat (st_node c) p) /\ m_type (modat (st_node c') p) = m_type (modat (st_node c) p)) as S.
  { intro p. destruct (Nat.eq_dec p q) as [->|Np]; [auto|]. destruct (A p Np) as [-> _]. auto. }
  assert (forall nr, hears (st_env c') (st_node c') nr <-> hears (st_env c) (st_node c) nr) as Hh by (intro nr; unfold hears, passes; rewrite Q, C; tauto).
  split; [split; [|split]|split; [exact B|split; [|split]]].
  - intros i Hi. destruct (S i) as [-> _]. apply N1. rewrite <- Tl. exact Hi.
  - intros i j Hij Hj. rewrite B in Hj. destruct (S i) as [-> _], (S j) as [-> _]. apply N2; auto.
  - intros p Hp. rewrite B in Hp. unfold number in *. destruct (S p) as [-> _]. rewrite Hh. apply N3. exact Hp.
  - intro p. unfold answers_as, status_tx. destruct (S p) as [-> ->]. rewrite Q. reflexivity.
  - unfold is_awake, awake. rewrite D. destruct w; reflexivity.
  - intros p Np. unfold is_awake, awake. destruct (A p Np) as [_ ->]. reflexivity.
Qed.

(** one order: every other station *)
Lemma order_other d q w now c c' : works c -> serial d < 16777216 -> 2 <= number d q <= 128 -> serial c <> serial d ->
  receives (order_id (Order (answers_as d q) w now)) (order_data (Order (answers_as d q) w now)) now c c' -> c' = c.
Proof.
  intros (HE & W & pre & R) Wd Rq Ns (Q & H). destruct c as [E s], c' as [E' s']. unfold serial in Ns at 1. cbn [st_env st_node] in *. subst E'. f_equal. destruct H as [(mo & Hm & _ & H)|(_ & H)]; [|exact H].
  eapply serial_refused; [exact R|exact Hm| | | |exact H]; [destruct w; reflexivity| |].
  - unfold order_id. cbn [o_to]. rewrite answer_number by exact Rq. unfold id_nr, sys_rx_id. lia.
  - rewrite order_serial by exact Wd. apply N.eqb_neq. exact Ns.
Qed.
(** answers tell modules apart *)
Lemma answer_apart c q p : numbered c -> (q < nmod (st_node c))%nat -> (p < nmod (st_node c))%nat -> answers_as c p = answers_as c q -> p = q.
Proof.
  intros (_ & N2 & N3) Lq Lp H. assert (number c p = number c q) as X. { rewrite <- (answer_number c p), <- (answer_number c q), H; [reflexivity| |]; apply N3; assumption. }
  unfold number in X. destruct (Nat.lt_trichotomy p q) as [L|[L|L]]; [|exact L|]; exfalso; [apply (N2 p q)|apply (N2 q p)]; auto.
Qed.
Lemma answer_stations c d p q : serial c < 16777216 -> serial d < 16777216 -> answers_as c p = answers_as d q -> serial c = serial d.
Proof. intros Hc Hd H. rewrite <- (answer_serial_of c p _ 0 0 eq_refl Hc), <- (answer_serial_of d q _ 0 0 eq_refl Hd), H. reflexivity. Qed.

(** the stations of a bus while orders are given *)
Definition bus_ok (ns : list station) : Prop := NoDup (map serial ns) /\ Forall works ns /\ Forall numbered ns.
Definition from_bus (ns : list station) (f : seen) : Prop := exists c q, In c ns /\ (q < nmod (st_node c))%nat /\ f = answers_as c q.
Definition follows (o : order) (c c' : station) : Prop :=
  st_env c' = st_env c /\ nmod (st_node c') = nmod (st_node c) /\ (forall p, answers_as c' p = answers_as c p) /\
  (forall q, (q < nmod (st_node c))%nat -> answers_as c q = o_to o -> is_awake c' q = wished_awake (o_wish o)) /\
  (forall q, (q < nmod (st_node c))%nat -> answers_as c q <> o_to o -> is_awake c' q = is_awake c q).
Lemma order_station ns o c c' : bus_ok ns -> from_bus ns (o_to o) -> In c ns -> receives (order_id o) (order_data o) (o_now o) c c' -> follows o c c' /\ works c' /\ numbered c'.
Proof.
  intros (D & W & N) (d & q & Hd & Lq & Ho) Hc H. rewrite Forall_forall in W, N. destruct o as [f w now]. cbn [o_to o_wish o_now] in *. subst f. destruct (N.eq_dec (serial c) (serial d)) as [Q|Q].
  - assert (c = d) as ->. { destruct (In_nth_error _ _ Hc) as (i & Hi), (In_nth_error _ _ Hd) as (j & Hj). assert (i = j) as ->; [|congruence]. eapply (NoDup_nth_error (map serial ns)); [exact D|rewrite map_length; apply nth_error_Some; congruence|]. rewrite !nth_error_map, Hi, Hj. cbn. congruence. }
    pose proof (receives_works _ _ _ _ _ H (W _ Hd)) as W'. pose proof H as H'. apply order_own in H'; auto. destruct H' as (A & B & C & F & G & I). split; [|split; assumption]. split; [exact A|]. split; [exact C|]. split; [exact F|]. split.
    + intros p Lp Hp. cbn [o_to] in Hp. apply answer_apart in Hp; auto. subst p. exact G.
    + intros p Lp Hp. apply I. intros ->. apply Hp. reflexivity.
  - assert (c' = c) as ->. { eapply order_other; [apply W; exact Hc|apply (W _ Hd)| |exact Q|exact H]. apply (N _ Hd). exact Lq. }
    split; [|auto]. split; [reflexivity|]. split; [reflexivity|]. split; [reflexivity|]. split; [|reflexivity]. intros p Lp Hp. exfalso. apply Q. cbn [o_to] in Hp. eapply answer_stations; [apply (W _ Hc)|apply (W _ Hd)|exact Hp].
Qed.
Lemma order_bus ns o ns1 : bus_ok ns -> from_bus ns (o_to o) -> Forall2 (receives (order_id o) (order_data o) (o_now o)) ns ns1 -> Forall2 (follows o) ns ns1 /\ bus_ok ns1.
Proof.
  intros B F H. assert (forall l l1, incl l ns -> Forall2 (receives (order_id o) (order_data o) (o_now o)) l l1 -> Forall2 (follows o) l l1 /\ map serial l1 = map serial l /\ Forall works l1 /\ Forall numbered l1) as X.
  { intros l l1 Hl H1. induction H1 as [|c c1 l l1 Hc H1 IH]; [repeat split; constructor|]. destruct IH as (I1 & I2 & I3 & I4); [intros x Hx; apply Hl; right; exact Hx|].
    destruct (order_station ns o c c1 B F) as (Y & W1 & N1); [apply Hl; left; reflexivity|exact Hc|]. split; [constructor; assumption|]. split; [|split; constructor; assumption]. cbn [map]. f_equal; [|exact I2]. unfold serial. destruct Y as (-> & _). reflexivity. }
  destruct (X ns ns1 (incl_refl _) H) as (X1 & X2 & X3 & X4). split; [exact X1|]. split; [rewrite X2; apply B|auto].
Qed.
Lemma from_bus_kept o ns ns1 f : Forall2 (follows o) ns ns1 -> from_bus ns f -> from_bus ns1 f.
Proof.
  intros H (c & q & Hc & Lq & ->). destruct (In_nth_error _ _ Hc) as (i & Hi). destruct (forall2_nth _ _ _ H _ _ Hi) as (c1 & H1 & _ & H3 & H4 & _). exists c1, q. split; [eapply nth_error_In; eauto|]. rewrite H3. split; [exact Lq|symmetry; apply H4].
Qed.
Lemma orders_bus l ns ns2 i c : ordered l ns ns2 -> bus_ok ns -> (forall o, In o l -> from_bus ns (o_to o)) -> nth_error ns i = Some c ->
  exists c2, nth_error ns2 i = Some c2 /\ st_env c2 = st_env c /\ nmod (st_node c2) = nmod (st_node c) /\ (forall p, answers_as c2 p = answers_as c p) /\
  forall q, (q < nmod (st_node c))%nat ->
    ((forall o, In o l -> o_to o <> answers_as c q) -> is_awake c2 q = is_awake c q) /\
    (forall l1 o l2, l = l1 ++ o :: l2 -> o_to o = answers_as c q -> (forall x, In x l2 -> o_to x <> answers_as c q) -> is_awake c2 q = wished_awake (o_wish o)).
Proof.
  intro H. revert c. induction H as [ns|o l ns ns1 ns2 H H' IH]; intros c B F Hi.
  - exists c. split; [exact Hi|]. split; [reflexivity|]. split; [reflexivity|]. split; [reflexivity|]. intros q Lq. split; [reflexivity|]. intros [|y l1] o l2 Q; discriminate Q.
  - destruct (order_bus _ _ _ B (F o (or_introl eq_refl)) H) as (G & B1). destruct (forall2_nth _ _ _ G _ _ Hi) as (c1 & H1 & Fo). destruct Fo as (F1 & F2 & F3 & F4 & F5).
    destruct (IH c1 B1) as (c2 & K1 & K2 & K3 & K4 & K5); [intros x Hx; eapply from_bus_kept; [exact G|apply F; right; exact Hx]|exact H1|].
    exists c2. split; [exact K1|]. split; [congruence|]. split; [congruence|]. split; [intro p; rewrite K4; apply F3|]. intros q Lq. destruct (K5 q) as (K6 & K7); [rewrite F2; exact Lq|]. rewrite F3 in K6, K7. split.
    + intro Hn. rewrite K6 by (intros x Hx; apply Hn; right; exact Hx). apply F5; [exact Lq|]. intro X. apply (Hn o); [left; reflexivity|symmetry; exact X].
    + intros l1 x l2 Q Hx Hl. destruct l1 as [|y l1]; cbn [app] in Q; injection Q as -> ->; [|eapply K7; eauto]. rewrite K6 by exact Hl. apply F4; [exact Lq|symmetry; exact Hx].
Qed.
Lemma roll_bus now ns ns1 : distinct ns -> Forall numbered ns -> roll_call now ns ns1 ->
  bus_ok ns1 /\ (forall f, answered ns ns1 f -> from_bus ns1 f) /\
  (forall i c, nth_error ns i = Some c -> exists c1, nth_error ns1 i = Some c1 /\ st_env c1 = st_env c /\ cfg_hw (st_node c) (st_node c1)).
Proof.
  intros (D & W) N H. change (Forall works ns) in W.
  assert (forall i c, nth_error ns i = Some c -> exists c1, nth_error ns1 i = Some c1 /\ receives (sys_rx_id 1) [1;0;0;0;0;0;0;0] now c c1 /\ works c /\ numbered c) as Y.
  { intros i c Hi. destruct (forall2_nth _ _ _ H _ _ Hi) as (c1 & H1 & H2). rewrite Forall_forall in W, N. pose proof (nth_error_In _ _ Hi) as In1. eauto 8. }
  split; [|split].
  - unfold roll_call in H. clear Y. assert (map serial ns1 = map serial ns /\ Forall works ns1 /\ Forall numbered ns1) as (A & B & C); [|split; [rewrite A; exact D|auto]]. clear D.
    induction H as [|c c1 l l1 Hc H IH]; [auto|]. inversion_clear W as [|? ? W1 W2]. inversion_clear N as [|? ? N1 N2]. destruct (IH W2 N2) as (A & B & C). destruct (roll_station _ _ _ W1 N1 Hc) as (Q & K & _).
    split; [cbn [map]; f_equal; [unfold serial; rewrite Q; reflexivity|exact A]|]. split; constructor; auto; [eapply receives_works; eauto|].
    destruct (same_cfg (st_env c) _ _ K) as (T & M & S & _ & Hh). destruct N1 as (P1 & P2 & P3). split; [|split].
    + intros i Hi. rewrite T in Hi. rewrite S. auto.
    + intros i j Hij Hj. rewrite M in Hj. rewrite !S. auto.
    + intros q Hq. rewrite M in Hq. unfold number. rewrite S, Q, Hh. apply P3. exact Hq.
  - intros f (i & c & c1 & Hi & Hi1 & Ha). destruct (Y i c Hi) as (c1' & H1 & H2 & Wc & Nc). assert (c1' = c1) as -> by congruence. destruct (roll_station _ _ _ Wc Nc H2) as (Q & K & Z). destruct (Z f Ha) as (q & Lq & _ & ->).
    destruct (same_cfg (st_env c) _ _ K) as (T & M & S & _). exists c1, q. split; [eapply nth_error_In; eauto|]. rewrite M. split; [exact Lq|]. unfold answers_as, status_tx. rewrite S, Q. reflexivity.
  - intros i c Hi. destruct (Y i c Hi) as (c1 & H1 & H2 & Wc & Nc). destruct (roll_station _ _ _ Wc Nc H2) as (Q & K & _). eauto.
Qed.

(** C104: every answer to a roll call comes from an awake module, and it names that module: no other module on the bus has it. *)
Theorem C104_answers_partial : forall now ns ns1 f, distinct ns -> Forall numbered ns -> roll_call now ns ns1 -> answered ns ns1 f ->
  exists i c q, nth_error ns i = Some c /\ (q < nmod (st_node c))%nat /\ is_awake c q = true /\ f = answers_as c q /\
  forall j d p, nth_error ns j = Some d -> (p < nmod (st_node d))%nat -> answers_as d p = f -> j = i /\ p = q.
Proof.
  intros now ns ns1 f (D & W) N H (i & c & c1 & Hi & Hi1 & Ha). change (Forall works ns) in W. destruct (forall2_nth _ _ _ H _ _ Hi) as (c1' & H1 & H2). assert (c1' = c1) as -> by congruence.
  rewrite Forall_forall in W, N. pose proof (nth_error_In _ _ Hi) as In1. destruct (roll_station _ _ _ (W _ In1) (N _ In1) H2) as (_ & _ & Z). destruct (Z f Ha) as (q & Lq & A & ->).
  exists i, c, q. split; [exact Hi|]. split; [exact Lq|]. split; [exact A|]. split; [reflexivity|]. intros j d p Hj Lp Q. pose proof (nth_error_In _ _ Hj) as In2. assert (serial d = serial c) as S by (eapply answer_stations; [apply (W _ In2)|apply (W _ In1)|exact Q]).
  assert (j = i) as -> by (eapply (NoDup_nth_error (map serial ns)); [exact D|rewrite map_length; apply nth_error_Some; congruence|]; rewrite !nth_error_map, Hi, Hj; cbn; congruence).
  assert (d = c) as -> by congruence. split; [reflexivity|]. eapply answer_apart; eauto.
Qed.
Print Assumptions C104_answers_partial.
(** C104: after a roll call, any sequence of orders made from the answers leaves every module of the bus as its last order says, and as
    it was if there was none for it. *)
Theorem C104_orders_partial : forall now ns ns1 l ns2 i c q, distinct ns -> Forall numbered ns -> roll_call now ns ns1 ->
  (forall o, In o l -> answered ns ns1 (o_to o)) -> ordered l ns1 ns2 -> nth_error ns i = Some c -> (q < nmod (st_node c))%nat ->
  exists c2, nth_error ns2 i = Some c2 /\
    ((forall o, In o l -> o_to o <> answers_as c q) -> is_awake c2 q = is_awake c q) /\
    (forall l1 f w t l2, l = l1 ++ Order f w t :: l2 -> f = answers_as c q -> (forall x, In x l2 -> o_to x <> answers_as c q) ->
       is_awake c2 q = match w with Sleep => false | Wake => true end).
Proof.
  intros now ns ns1 l ns2 i c q D N H F O Hi Lq. destruct (roll_bus _ _ _ D N H) as (B & F1 & K). destruct (K i c Hi) as (c1 & H1 & Q & C). destruct (same_cfg (st_env c) _ _ C) as (T & M & S & Aw & _).
  destruct (orders_bus l ns1 ns2 i c1 O B) as (c2 & K1 & _ & _ & _ & K5); [intros o Ho; apply F1, F; exact Ho|exact H1|]. exists c2. split; [exact K1|].
  destruct (K5 q) as (K6 & K7); [rewrite M; exact Lq|]. assert (answers_as c1 q = answers_as c q) as Qa by (unfold answers_as, status_tx; rewrite S, Q; reflexivity). rewrite Qa in K6, K7. split.
  - intro X. rewrite K6 by exact X. apply Aw.
  - intros l1 f w t l2 Ql Qf X. apply (K7 l1 (Order f w t) l2 Ql Qf X).
Qed.
Print Assumptions C104_orders_partial.
(** C104: and a change-number message made from an answer gives the module that answered its new number, and no other module. *)
Theorem C104_renumber_partial : forall now ns ns1 f new t ns2, distinct ns -> Forall numbered ns -> roll_call now ns ns1 -> answered ns ns1 f ->
  assigned [renumber f new t] ns1 ns2 ->
  exists i c q, nth_error ns i = Some c /\ (q < nmod (st_node c))%nat /\ f = answers_as c q /\
  (accepts_nr (st_node c) q new ->
   (exists c2, nth_error ns2 i = Some c2 /\ number c2 q = new /\ forall p, p <> q -> number c2 p = number c p) /\
   (forall j, j <> i -> nth_error ns2 j = nth_error ns1 j)).
Proof.
  intros now ns ns1 f new t ns2 D N H (i & c & c1 & Hi & Hi1 & Ha) A. destruct (roll_bus _ _ _ D N H) as (B & _ & K). pose proof D as (_ & W). change (Forall works ns) in W.
  destruct (forall2_nth _ _ _ H _ _ Hi) as (c1' & H1 & H2). assert (c1' = c1) as -> by congruence. clear H1. rewrite Forall_forall in W, N. pose proof (nth_error_In _ _ Hi) as In1. pose proof (W _ In1) as Wc. pose proof (N _ In1) as Nc.
  destruct (roll_station _ _ _ Wc Nc H2) as (Q & C & Z). destruct (Z f Ha) as (q & Lq & _ & ->). exists i, c, q. split; [exact Hi|]. split; [exact Lq|]. split; [reflexivity|]. intro Ac.
  destruct (same_cfg (st_env c) _ _ C) as (T & M & S & _ & Hh). destruct Nc as (N1 & N2 & N3). destruct (N3 q Lq) as (Rq & Hq). pose proof (proj1 (proj2 Wc)) as Ws.
  assert (forall p, number c1 p = number c p) as Nn by (intro; unfold number; rewrite S; reflexivity).
  destruct (C101_one_partial (renumber (answers_as c q) new t) ns1 ns2 i c1 q) as ((c2 & X1 & X2 & X3) & X4); auto.
  - destruct B as (B1 & B2 & _). split; [exact B1|exact B2].
  - split; [cbn [renumber a_old]; rewrite answer_number by exact Rq; exact Rq|]. rewrite (answer_serial_of c q _ t new eq_refl Ws). exact Ws.
  - split; [rewrite (answer_serial_of c q _ t new eq_refl Ws); unfold serial; rewrite Q; reflexivity|]. unfold renumber. cbn [a_old a_new]. rewrite answer_number by exact Rq. split; [exact Rq|]. split; [|split].
    + unfold number. rewrite <- S. apply entry_own; [rewrite M; exact Lq| |].
      * rewrite T. destruct Wc as (HE & _ & pre & R). destruct (WF_reached _ _ _ R) as ((Lt & _) & _). change (length (tab_of (st_node c))) with (length (k_tab (n_cfg (st_node c)))). rewrite Lt. eapply Nat.lt_le_trans; [exact Lq|]. eapply nmod_le; eauto.
      * intros a0 b0 Hab Hb. rewrite M in Hb. rewrite !S. auto.
    + rewrite Q. apply Hh. exact Hq.
    + unfold accepts_nr in *. destruct C as [-> _]. rewrite S. exact Ac.
  - split; [|exact X4]. exists c2. split; [exact X1|]. split; [exact X2|]. intros p Np. rewrite X3 by exact Np. apply Nn.
Qed.
Print Assumptions C104_renumber_partial.
(** C104, finding: a node whose serial number needs more than 24 bits answers, but orders made from its answers do nothing. *)
Theorem C104_large_refuted : forall pre c f w t c', 16777216 <= serial c -> reached (st_env c) pre (st_node c) -> its_number f <> 1 ->
  receives (order_id (Order f w t)) (order_data (Order f w t)) t c c' -> c' = c.
Proof.
  intros pre c f w t c' L R Nf (Q & H). destruct c as [E s], c' as [E' s']. unfold serial in L. cbn [st_env st_node] in *. subst E'. f_equal. destruct H as [(mo & Hm & _ & H)|(_ & H)]; [|exact H].
  eapply large_serial; [exact L|exact R|exact Hm| | |exact H]; [destruct w; reflexivity|]. unfold order_id, its_number in *. cbn [o_to] in *. unfold id_nr in *. unfold sys_rx_id. lia.
Qed.
Print Assumptions C104_large_refuted.

(** the three nodes of C101_case and a fourth one with a large serial number *)
Definition called (n : N) : node := match step (with_serial n) (OpFrame MO_SYS1 (sys_rx_id 1) 8 [1;0;0;0;0;0;0;0] 3) (ready n) with Ret (_, s) => s | _ => static0 end.
Definition after_call (n : N) : station := Station (with_serial n) (called n).
Definition sleep_6 : order := Order (79, 8, [4; 109; 111; 100; 50; 0; 0; 6]) Sleep 4.
Definition asleep (n : N) : station := Station (with_serial n) (match step (with_serial n) (OpFrame MO_SYS1 (order_id sleep_6) 8 (order_data sleep_6) 4) (called n) with Ret (_, s) => s | _ => static0 end).
Lemma call_taken n : In n [5; 6; 70000; 16777221] -> receives (sys_rx_id 1) [1;0;0;0;0;0;0;0] 3 (node_of n) (after_call n).
Proof.
  intro H. split; [reflexivity|]. left. exists MO_SYS1. split; [reflexivity|]. cbn [In] in H. destruct H as [<-|[<-|[<-|[<-|[]]]]]; (split; [vm_compute; reflexivity|]).
  all: cbn [st_env st_node node_of after_call]; unfold called; match goal with |- step ?e ?o ?s = _ => assert (match step e o s with Ret _ => true | _ => false end = true) as X by (vm_compute; reflexivity); destruct (step e o s) as [[[] s']| |]; [reflexivity|discriminate X|discriminate X] end.
Qed.
Lemma numbered_by E s : forallb (fun m => (1 <=? m_nr m) && (m_nr m <=? 255)) (tab_of s) = true -> nmod s = 2%nat -> m_nr (modat s 0) = 10 -> m_nr (modat s 1) = 20 -> hears E s 10 -> hears E s 20 -> numbered (Station E s).
Proof.
  intros K M N0 N1 H0 H1. split; [|split].
  - intros i Li. cbn [st_node] in *. rewrite forallb_forall in K. assert (In (modat s i) (tab_of s)) as X by (apply nth_In; exact Li). apply K in X. lia.
  - intros i j Hij Hj. cbn [st_node] in *. rewrite M in Hj. assert (i = 0 /\ j = 1)%nat as [-> ->] by lia. rewrite N0, N1. discriminate.
  - intros q Hq. unfold number. cbn [st_env st_node] in *. rewrite M in Hq. destruct q as [|[|q]]; [rewrite N0; split; [lia|exact H0]|rewrite N1; split; [lia|exact H1]|lia].
Qed.
Lemma node_numbered n : In n [5; 6; 70000; 16777221] -> numbered (node_of n).
Proof.
  intro H. unfold node_of. cbn [In] in H. apply numbered_by; destruct H as [<-|[<-|[<-|[<-|[]]]]]; try (vm_compute; reflexivity).
  all: unfold hears; split; [vm_compute; reflexivity|split; intros _; vm_compute; reflexivity].
Qed.
Lemma order_taken n : In n [5; 6; 70000] -> receives (order_id sleep_6) (order_data sleep_6) 4 (after_call n) (asleep n).
Proof.
  intro H. split; [reflexivity|]. left. exists MO_SYS1. split; [reflexivity|]. cbn [In] in H. destruct H as [<-|[<-|[<-|[]]]]; (split; [vm_compute; reflexivity|]).
  all: cbn [st_env st_node after_call asleep]; match goal with |- step ?e ?o ?s = _ => assert (match step e o s with Ret _ => true | _ => false end = true) as X by (vm_compute; reflexivity); destruct (step e o s) as [[[] s']| |]; [reflexivity|discriminate X|discriminate X] end.
Qed.
(** module 1 (number 20) of the node with serial number 6 is sent to sleep; the others stay awake *)
Example C104_case : distinct the_bus /\ Forall numbered the_bus /\ roll_call 3 the_bus (map after_call [5; 6; 70000]) /\
  answered the_bus (map after_call [5; 6; 70000]) (o_to sleep_6) /\ ordered [sleep_6] (map after_call [5; 6; 70000]) (map asleep [5; 6; 70000]) /\
  map (fun n => map (is_awake (asleep n)) [0; 1]%nat) [5; 6; 70000] = [[true; true]; [true; false]; [true; true]].
Proof.
  split; [exact (proj1 C101_case)|]. split; [unfold the_bus; cbn [map]; repeat (constructor; [apply node_numbered; cbn [In]; auto|]); constructor|].
  split; [unfold roll_call, the_bus; cbn [map]; repeat (constructor; [apply call_taken; cbn [In]; auto|]); constructor|].
  split; [exists 1%nat, (node_of 6), (after_call 6); split; [reflexivity|]; split; [reflexivity|]; exists [EvFirstStatus None; EvTx 39 8 [4; 109; 111; 100; 49; 0; 0; 6] true; EvTx 79 8 [4; 109; 111; 100; 50; 0; 0; 6] true]; split; [vm_compute; reflexivity|split; [right; left; reflexivity|reflexivity]]|].
  split; [|vm_compute; reflexivity]. eapply ordered_next; [|apply ordered_none]. cbn [map]. repeat (constructor; [apply order_taken; cbn [In]; auto|]); constructor.
Qed.
(** the finding is met by a node that does answer *)
Example C104_large_case : let c := node_of 16777221 in 16777216 <= serial c /\ reached (st_env c) add2 (st_node c) /\ numbered c /\ receives (sys_rx_id 1) [1;0;0;0;0;0;0;0] 3 c (after_call 16777221) /\
  answer c (after_call 16777221) (79, 8, [4; 109; 111; 100; 50; 0; 0; 5]) /\ its_number (79, 8, [4; 109; 111; 100; 50; 0; 0; 5]) = 20.
Proof.
  cbn zeta. split; [vm_compute; discriminate|]. split; [apply node_works; cbn [In]; auto|]. split; [apply node_numbered; cbn [In]; auto|]. split; [apply call_taken; cbn [In]; auto|]. split; [|reflexivity].
  exists [EvFirstStatus None; EvTx 39 8 [4; 109; 111; 100; 49; 0; 0; 5] true; EvTx 79 8 [4; 109; 111; 100; 50; 0; 0; 5] true]. split; [vm_compute; reflexivity|]. split; [right; left; reflexivity|reflexivity].
Qed.
