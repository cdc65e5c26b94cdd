(** One cycle of process data: which frames are sent, and that the loop ends. *)
From Verif Require Import Words WordsFacts Bits ErrModel NodeModel NodeLib NodeInv NodeSpec NodeHw NodeCnt NodeSync NodeImage NodeSilent NodePres NodeSysP NodeTx.

(** ** the loop over the bits of the register *)
Definition setbits (reg : N) (cur n : nat) : list nat := filter (fun c => N.testbit reg (N.of_nat c)) (seq cur n).
Lemma filter_seq_cons f n : forall cur c0 rest, filter f (seq cur n) = c0 :: rest ->
  (cur <= c0 < cur + n)%nat /\ f c0 = true /\ (forall j, (cur <= j < c0)%nat -> f j = false) /\ rest = filter f (seq (S c0) (cur + n - S c0)).
Proof.
  induction n as [|n IH]; intros cur c0 rest H; cbn [seq filter] in H; [discriminate|]. destruct (f cur) eqn:Fc.
  - injection H as <- <-. split; [lia|]. split; [exact Fc|]. split; [intros; lia|]. f_equal. f_equal. lia.
  - apply IH in H. destruct H as (H1 & H2 & H3 & H4). split; [lia|]. split; [exact H2|]. split.
    + intros j Hj. destruct (Nat.eq_dec j cur) as [->|]; auto. apply H3. lia.
    + rewrite H4. f_equal. f_equal. lia.
Qed.
Lemma filter_seq_nil f n : forall cur, filter f (seq cur n) = [] -> forall j, (cur <= j < cur + n)%nat -> f j = false.
Proof.
  induction n as [|n IH]; intros cur H j Hj; cbn [seq filter] in H; [lia|]. destruct (f cur) eqn:Fc; [discriminate|].
  destruct (Nat.eq_dec j cur) as [->|]; auto. eapply IH; eauto. lia.
Qed.
Lemma skip_to xe : forall n send cur k, (k <= n)%nat -> (forall j, (j < k)%nat -> N.testbit send (N.of_nat j) = false) ->
  N.testbit send (N.of_nat k) = true -> (cur + k <= xe)%nat -> skip n send cur xe = (N.shiftr send (N.of_nat k), (cur + k)%nat).
Proof.
  induction n as [|n IH]; intros send cur k Hk Hj Ht Hc; cbn [skip].
  - assert (k = 0%nat) as -> by lia. rewrite N.shiftr_0_r, Nat.add_0_r. reflexivity.
  - destruct (Nat.leb_spec cur xe) as [_|]; [|lia]. destruct k as [|k].
    + rewrite <- N.bit0_odd. change (N.of_nat 0) with 0 in *. rewrite Ht. cbn. rewrite N.shiftr_0_r, Nat.add_0_r. reflexivity.
    + rewrite <- N.bit0_odd. change 0 with (N.of_nat 0) at 1. rewrite (Hj 0%nat) by lia. cbn [negb andb].
      rewrite (IH _ _ k).
      * rewrite N.shiftr_shiftr. f_equal; [f_equal; lia | lia].
      * lia.
      * intros j Lj. rewrite N.shiftr_spec by lia. replace (N.of_nat j + 1) with (N.of_nat (S j)) by lia. apply Hj. lia.
      * rewrite N.shiftr_spec by lia. replace (N.of_nat k + 1) with (N.of_nat (S k)) by lia. exact Ht.
      * lia.
Qed.

Section Send.
Variable E : env.
Hypothesis HE : env_ok E.
Fixpoint send_all (l : list nat) (can : list byte) : M unit :=
  match l with
  | [] => ret tt
  | c :: t => can' <- send_one E c can ;; send_all t can'
  end.
Lemma send_loop_all reg xe : (forall n, (xe < n)%nat -> N.testbit reg (N.of_nat n) = false) ->
  forall fuel cur can s, (cur <= S xe)%nat -> x_end (n_tx s) = xe -> (length (setbits reg cur (S xe - cur)) < fuel)%nat ->
  send_loop E fuel (N.shiftr reg (N.of_nat cur)) cur can s = send_all (setbits reg cur (S xe - cur)) can s.
Proof.
  intro Hx. induction fuel as [|fuel IH]; intros cur can s Hc He Hf; [lia|]. cbn [send_loop].
  destruct (setbits reg cur (S xe - cur)) as [|c0 rest] eqn:Sb; unfold setbits in Sb.
  - replace (N.shiftr reg (N.of_nat cur) =? 0) with true; [reflexivity|]. symmetry. apply N.eqb_eq. apply N.bits_inj_0. intro n. rewrite N.shiftr_spec by lia.
    replace (n + N.of_nat cur) with (N.of_nat (N.to_nat n + cur)) by lia. destruct (Nat.le_gt_cases (N.to_nat n + cur) xe) as [L|L]; [|apply Hx; exact L].
    apply (filter_seq_nil _ _ _ Sb). lia.
  - apply filter_seq_cons in Sb. destruct Sb as (B1 & B2 & B3 & B4).
    destruct (N.eqb_spec (N.shiftr reg (N.of_nat cur)) 0) as [Z|Z].
    { exfalso. assert (N.testbit (N.shiftr reg (N.of_nat cur)) (N.of_nat (c0 - cur)) = false) as T by (rewrite Z; apply N.bits_0).
      rewrite N.shiftr_spec in T by lia. replace (N.of_nat (c0 - cur) + N.of_nat cur) with (N.of_nat c0) in T by lia. congruence. }
    unfold bind at 1. cbn [gets]. rewrite He. rewrite (skip_to xe (S xe) _ _ (c0 - cur)).
    + rewrite N.shiftr_shiftr. replace (N.of_nat cur + N.of_nat (c0 - cur)) with (N.of_nat c0) by lia. replace (cur + (c0 - cur))%nat with c0 by lia.
      rewrite <- N.bit0_odd, N.shiftr_spec, N.add_0_l, B2 by lia. rewrite N.shiftr_shiftr. replace (N.of_nat c0 + 1) with (N.of_nat (S c0)) by lia. cbn [send_all].
      unfold bind. destruct (send_one E c0 can s) as [[can' s1]| |] eqn:S1; auto. apply send_one_cyc in S1. destruct S1 as ((_ & T1 & _) & _).
      replace rest with (setbits reg (S c0) (S xe - S c0)) in * by (rewrite B4; unfold setbits; f_equal; f_equal; lia). apply IH; [lia|rewrite T1; exact He|].
      cbn [length] in Hf. lia.
    + lia.
    + intros j Hj. rewrite N.shiftr_spec by lia. replace (N.of_nat j + N.of_nat cur) with (N.of_nat (j + cur)) by lia. apply B3. lia.
    + rewrite N.shiftr_spec by lia. replace (N.of_nat (c0 - cur) + N.of_nat cur) with (N.of_nat c0) by lia. exact B2.
    + lia.
Qed.

(** ** the bits of the register in a state with the invariant *)
Definition enc (x : nat * nat) : nat := (NOBJ * fst x + snd x)%nat.
Lemma setbits_more reg a k : (forall n, (a <= n)%nat -> N.testbit reg (N.of_nat n) = false) -> setbits reg 0 (a + k) = setbits reg 0 a.
Proof.
  intro H. unfold setbits. rewrite seq_app, filter_app. rewrite <- (app_nil_r (filter _ (seq 0 a))) at 2. f_equal.
  cbn [Nat.add]. assert (forall m c, (a <= c)%nat -> filter (fun c => N.testbit reg (N.of_nat c)) (seq c m) = []) as F; [|apply F; lia].
  induction m as [|m IH]; intros c Hc; cbn [seq filter]; auto. rewrite H by exact Hc. apply IH. lia.
Qed.
Lemma setbits_same reg a b : (forall n, (a <= n)%nat -> N.testbit reg (N.of_nat n) = false) -> (forall n, (b <= n)%nat -> N.testbit reg (N.of_nat n) = false) -> setbits reg 0 a = setbits reg 0 b.
Proof.
  intros Ha Hb. destruct (Nat.le_ge_cases a b) as [L|L].
  - replace b with (a + (b - a))%nat by lia. symmetry. apply setbits_more, Ha.
  - replace a with (b + (a - b))%nat by lia. apply setbits_more, Hb.
Qed.
Lemma bit_beyond s n : TxI E s -> (x_end (n_tx s) < n)%nat -> N.testbit (x_reg (n_tx s)) (N.of_nat n) = false.
Proof.
  intros I Hn. destruct (Nat.le_gt_cases (NOBJ * MAXM E) n) as [L|L]; [apply I; exact L|].
  set (p := (n / NOBJ)%nat). set (o := (n mod NOBJ)%nat). assert (n = NOBJ * p + o)%nat as Q by (apply Nat.div_mod; discriminate).
  assert (o < NOBJ)%nat as Lo by (apply Nat.mod_upper_bound; discriminate). assert (p < MAXM E)%nat as Lp by (unfold NOBJ in *; lia).
  pose proof (tg_bits E _ _ _ (ti_g E s I) p o Lp Lo) as B. unfold cyclic in B. change 4%nat with NOBJ in B. rewrite <- Q in B. rewrite B.
  destruct (Nat.ltb_spec o (ntx s p)) as [L2|L2]; [|apply andb_false_r]. exfalso. pose proof (tg_end E _ _ _ (ti_g E s I) p o Lp L2). lia.
Qed.
Lemma setbits_blocks reg m : setbits reg 0 (NOBJ * m) = flat_map (fun p => map (fun o => NOBJ * p + o)%nat (filter (fun o => N.testbit reg (N.of_nat (NOBJ * p + o))) (seq 0 NOBJ))) (seq 0 m).
Proof.
  induction m as [|m IH]; [reflexivity|]. rewrite seq_S, flat_map_app, <- IH. unfold setbits. replace (NOBJ * S m)%nat with (NOBJ * m + NOBJ)%nat by (unfold NOBJ; lia).
  rewrite seq_app, filter_app. f_equal. cbn [flat_map Nat.add]. rewrite app_nil_r.
  assert (forall k i, filter (fun c => N.testbit reg (N.of_nat c)) (seq (NOBJ * m + i) k) = map (fun o => NOBJ * m + o)%nat (filter (fun o => N.testbit reg (N.of_nat (NOBJ * m + o))) (seq i k))) as F.
  { induction k as [|k IHk]; intro i; cbn [seq filter]; auto. replace (S (NOBJ * m + i)) with (NOBJ * m + S i)%nat by lia. rewrite IHk.
    destruct (N.testbit reg (N.of_nat (NOBJ * m + i))); reflexivity. }
  rewrite <- (F NOBJ 0%nat), Nat.add_0_r. reflexivity.
Qed.
Lemma filter_ltb n m : (n <= m)%nat -> filter (fun o => (o <? n)%nat) (seq 0 m) = seq 0 n.
Proof.
  intro H. replace m with (n + (m - n))%nat by lia. rewrite seq_app, filter_app.
  assert (forall k i, (i + k <= n)%nat -> filter (fun o => (o <? n)%nat) (seq i k) = seq i k) as F1.
  { induction k as [|k IH]; intros i Hi; cbn [seq filter]; auto. destruct (Nat.ltb_spec i n); [|lia]. f_equal. apply IH. lia. }
  assert (forall k i, (n <= i)%nat -> filter (fun o => (o <? n)%nat) (seq i k) = []) as F2.
  { induction k as [|k IH]; intros i Hi; cbn [seq filter]; auto. destruct (Nat.ltb_spec i n); [lia|]. apply IH. lia. }
  rewrite F1, F2, app_nil_r by lia. reflexivity.
Qed.
Lemma flat_map_ext_in' {A B} (f g : A -> list B) l : (forall x, In x l -> f x = g x) -> flat_map f l = flat_map g l.
Proof. induction l as [|x l IH]; intro H; cbn; auto. rewrite H by (left; auto). f_equal. apply IH. intros; apply H; right; auto. Qed.
Lemma map_flat_map {A B C} (h : B -> C) (f : A -> list B) l : map h (flat_map f l) = flat_map (fun x => map h (f x)) l.
Proof. induction l as [|x l IH]; cbn; auto. rewrite map_app, IH. reflexivity. Qed.
Lemma setbits_enabled s : WF E s -> TxI E s -> setbits (x_reg (n_tx s)) 0 (S (x_end (n_tx s))) = map enc (enabled s).
Proof.
  intros W I. rewrite (setbits_same _ _ (NOBJ * MAXM E)).
  - rewrite setbits_blocks. unfold enabled. rewrite map_flat_map, (tab_len E s W). apply flat_map_ext_in'. intros p Hp. apply in_seq in Hp.
    rewrite (filter_ext_in _ (fun o => awake s p && (o <? ntx s p)%nat)).
    + destruct (awake s p); cbn [andb].
      * rewrite filter_ltb by apply (modat_ok E s p W). rewrite map_map. reflexivity.
      * replace (filter _ _) with (@nil nat) by (induction (seq 0 NOBJ); auto). reflexivity.
    + intros o Ho. apply in_seq in Ho. apply (tg_bits E _ _ _ (ti_g E s I)); lia.
  - intros n Hn. apply bit_beyond; auto.
  - intros n Hn. apply I. exact Hn.
Qed.
Lemma enabled_short s : WF E s -> (length (enabled s) <= 32)%nat.
Proof.
  intro W. unfold enabled. rewrite (tab_len E s W). destruct HE as ((_ & M8) & _). assert (forall m k, (length (flat_map (fun p => if awake s p then map (fun o => (p, o)) (seq 0 (m_ntx (modat s p))) else []) (seq k m)) <= 4 * m)%nat) as F.
  { induction m as [|m IH]; intro k; cbn [seq flat_map]; [cbn; lia|]. rewrite app_length. specialize (IH (S k)).
    assert (m_ntx (modat s k) <= NOBJ)%nat as L by apply (modat_ok E s k W). unfold NOBJ in L. destruct (awake s k); cbn [length]; [rewrite map_length, seq_length|]; lia. }
  specialize (F (MAXM E) 0%nat). lia.
Qed.
Lemma send_process_all s : WF E s -> TxI E s -> send_process_data E s = send_all (map enc (enabled s)) (JUNK E) s.
Proof.
  intros W I. unfold send_process_data, bind. cbn [gets]. rewrite <- (setbits_enabled s W I). set (reg := x_reg (n_tx s)). set (xe := x_end (n_tx s)).
  change (reg) with (N.shiftr reg (N.of_nat 0)) at 1. assert (length (setbits reg 0 (S xe)) < SEND_FUEL)%nat as L.
  { unfold reg, xe. rewrite (setbits_enabled s W I), map_length. pose proof (enabled_short s W). unfold SEND_FUEL. lia. }
  revert L. generalize SEND_FUEL. intros fuel L. rewrite (send_loop_all reg xe); auto; [|lia].
  intros n Hn. apply bit_beyond; auto.
Qed.

(** ** the frames *)
Lemma can_ident_data nr o : 1 <= nr -> nr < 8000 -> (o < NOBJ)%nat -> can_ident BASE_TX nr o = data_tx_id nr o.
Proof. intros H1 H2 H3. unfold can_ident, data_tx_id, BASE_TX, u16. unfold NOBJ in H3. lia. Qed.
Definition tx_ok (s : node) (p o : nat) : Prop :=
  (p < MAXM E)%nat /\ (o < NOBJ)%nat /\ get2 (x_id (n_tx s)) p o = data_tx_id (m_nr (modat s p)) o /\ get2 (x_dlc (n_tx s)) p o = t_dlc (txat (modat s p) o).
Lemma enc_div p o : (o < NOBJ)%nat -> ((enc (p, o) / NOBJ) = p /\ (enc (p, o) mod NOBJ) = o)%nat.
Proof.
  intro H. unfold enc. cbn [fst snd]. split.
  - rewrite Nat.mul_comm, Nat.div_add_l, Nat.div_small by (auto; discriminate). lia.
  - rewrite Nat.add_comm, Nat.mul_comm, Nat.mod_add, Nat.mod_small by (auto; discriminate). reflexivity.
Qed.
Lemma send_one_frame s p o can r s' : tx_ok s p o -> send_one E (enc (p, o)) can s = Ret (r, s') ->
  only_tx s s' /\ exists e new, convert s p o can = Some (r, e) /\ added s s' new /\
    sent new = if e =? ERR_OK then [(data_tx_id (m_nr (modat s p)) o, t_dlc (txat (modat s p) o), firstn (N.to_nat (t_dlc (txat (modat s p) o))) r)] else [].
Proof.
  intros (Lp & Lo & Hi & Hd) H. pose proof (send_one_cyc _ _ _ _ _ _ H) as (O & _). split; [exact O|].
  unfold send_one in H. cbv zeta in H. destruct (enc_div p o Lo) as [E1 E2]. rewrite E1, E2 in H.
  mbind H as u s0 H0. apply guard_inv in H0. destruct H0 as [_ ->]. mbind H as dlc s0 H0. apply gets_inv in H0. destruct H0 as [-> ->].
  mbind H as q s1 H1. unfold tx_data_main in H1. mbind H1 as ob s2 H2. apply gets_inv in H2. destruct H2 as [-> ->]. mbind H1 as mem s2 H2. apply gets_inv in H2. destruct H2 as [-> ->].
  unfold convert. cbv zeta. destruct (nth_error _ _) as [app|]; [|discriminate]. destruct (t_conv_s _) as [g|]; [|discriminate].
  mbind H1 as u2 s2 H2. apply guard_inv in H2. destruct H2 as [_ ->]. apply ret_inv in H1. destruct H1 as [-> ->].
  set (q := g can (firstn 8 app) (t_dlc (txat (modat s p) o))) in *. exists (snd q).
  mbind H as u3 s2 H2. apply ret_inv in H. destruct H as [-> ->]. destruct u3.
  assert (forall e a a', report_if e a = Ret (tt, a') -> n_log a' = n_log a) as Rl. { intros e a a' Hr. apply report_if_inv in Hr. destruct (e =? ERR_OK); [subst; reflexivity|]. destruct Hr as (Hr & _). rewrite Hr. reflexivity. }
  destruct (snd q =? ERR_OK).
  - mbind H2 as idl s3 H3. apply gets_inv in H3. destruct H3 as [-> ->]. mbind H2 as e s3 H3. apply send_msg_inv in H3. destruct H3 as (_ & _ & _ & ok & L & _).
    apply Rl in H2. eexists. split; [f_equal; destruct q; reflexivity|]. split; [unfold added; rewrite H2; exact L|]. cbn [sent fst snd]. rewrite Hi, Hd. reflexivity.
  - apply Rl in H2. exists []. split; [f_equal; destruct q; reflexivity|]. split; [|reflexivity]. unfold added. rewrite app_nil_r. exact H2.
Qed.
Lemma only_tx_convert s s' p o can : only_tx s s' -> convert s' p o can = convert s p o can /\ modat s' p = modat s p.
Proof. intros (C & _ & _ & _ & _ & M). unfold convert, modat, tab_of. rewrite C, M. auto. Qed.
Lemma cyc_frames_same s s' l : only_tx s s' -> forall can, cyc_frames s' l can = cyc_frames s l can.
Proof.
  intro O. induction l as [|[p o] l IH]; intro can; cbn [cyc_frames]; auto. destruct (only_tx_convert s s' p o can O) as [-> ->].
  destruct (convert s p o can) as [[c e]|]; auto. rewrite IH. reflexivity.
Qed.
Lemma send_all_frames : forall l can s u s', Forall (fun x => tx_ok s (fst x) (snd x)) l -> send_all (map enc l) can s = Ret (u, s') ->
  exists new, added s s' new /\ sent new = cyc_frames s l can.
Proof.
  induction l as [|[p o] l IH]; intros can s u s' F H; cbn [map send_all] in H.
  - apply ret_inv in H. destruct H as [_ ->]. exists []. split; [unfold added; rewrite app_nil_r; reflexivity|reflexivity].
  - inversion F as [|? ? F1 F2]; subst. mbind H as can' s1 H1. apply send_one_frame in H1; [|exact F1]. destruct H1 as (O & e & n1 & C1 & L1 & S1).
    apply IH in H.
    + destruct H as (n2 & L2 & S2). exists (n1 ++ n2). split; [unfold added in *; rewrite L2, L1, app_assoc; reflexivity|].
      rewrite sent_app, S1, S2. cbn [cyc_frames]. rewrite C1. rewrite (cyc_frames_same _ _ _ O). reflexivity.
    + revert F2. apply Forall_impl. intros [p' o'] (A1 & A2 & A3 & A4). destruct O as (C & T & _). unfold tx_ok, modat, tab_of in *. cbn [fst snd] in *. rewrite T, C. auto.
Qed.
Lemma enabled_ok s : WF E s -> TxI E s -> Forall (fun x => tx_ok s (fst x) (snd x)) (enabled s).
Proof.
  intros W I. apply Forall_forall. intros [p o] H. unfold enabled in H. apply in_flat_map in H. destruct H as (q & Hq & H). apply in_seq in Hq. rewrite (tab_len E s W) in Hq.
  destruct (awake s q); [|destruct H]. apply in_map_iff in H. destruct H as (o' & Q & Ho). injection Q as -> ->. apply in_seq in Ho. cbn [fst snd].
  pose proof (modat_ok E s p W) as (_ & M & _). destruct (tg_data E _ _ _ (ti_g E s I) p o) as [D1 D2]; [lia|unfold ntx; lia|].
  split; [lia|]. split; [lia|]. split; [|exact D2]. rewrite D1. pose proof (ti_nr E s I p). apply can_ident_data; lia.
Qed.
Lemma send_process_frames s u s' : WF E s -> TxI E s -> send_process_data E s = Ret (u, s') ->
  exists new, added s s' new /\ sent new = cyc_frames s (enabled s) (JUNK E).
Proof. intros W I. rewrite (send_process_all s W I). apply send_all_frames. apply enabled_ok; auto. Qed.

(** ** a whole process request *)
Definition keep_mem (s s' : node) : Prop := n_mem s' = n_mem s.
#[local] Instance pre_keep_mem : Pre keep_mem.
Proof. unfold keep_mem. split; intros; congruence. Qed.
Lemma mem_request : pres keep_mem process_request_rx.
Proof. unfold process_request_rx. pres_tac; reflexivity. Qed.
Lemma mem_check now : pres keep_mem (check_image now).
Proof.
  assert (forall n first, pres keep_mem (check_modules n first now)) as Hc.
  { induction n as [|n IH]; intro first; cbn [check_modules]; [pres_tac|]. unfold check_module. repeat (simple apply IH || pres_tac1); reflexivity. }
  unfold check_image, clear_image. repeat (simple apply Hc || pres_tac1); reflexivity.
Qed.
Lemma cyc_frames_cfg s s' l : n_cfg s' = n_cfg s -> n_mem s' = n_mem s -> forall can, cyc_frames s' l can = cyc_frames s l can.
Proof.
  intros C M. induction l as [|[p o] l IH]; intro can; cbn [cyc_frames]; auto. unfold convert, modat, tab_of. rewrite C, M.
  destruct (nth_error _ _); auto. destruct (t_conv_s _); auto. destruct (t _ _ _). rewrite IH. reflexivity.
Qed.
Lemma enabled_cfg s s' : n_cfg s' = n_cfg s -> enabled s' = enabled s.
Proof. intro C. unfold enabled, awake, silat, modat, tab_of. rewrite C. reflexivity. Qed.
Lemma TxI_numbers s : WF E s -> TxI E s -> numbers_ok s.
Proof. intros W I i Hi. rewrite (tab_len E s W) in Hi. pose proof (ti_nr E s I i Hi). lia. Qed.
Lemma wf_request : pres (WFR E) process_request_rx.
Proof. unfold process_request_rx. pres_tac; try wf_leaf. Qed.
Lemma request_frames_I pre id dlc data now s s' : TxI E s -> reached E pre s -> step E (OpFrame MO_PROCESS id dlc data now) s = Ret (tt, s') ->
  exists new st, added s s' new /\ reports (m_nr (modat s 0)) (n_err s) st /\
    sent new = cyc_frames s (enabled s) (JUNK E) ++ match pending_errors st with [] => [] | e :: _ => error_tx s e end.
Proof.
  intros I R H. pose proof (WF_reached E _ _ R) as W.
  assert (0 < length (tab_of s))%nat as Hl by (rewrite (tab_len E s W); apply HE). pose proof (TxI_numbers s W I) as Hn.
  eapply step_request in H; [|reflexivity|eapply HwI_reached, R]. unfold on_process in H.
  mbind H as u1 s1 H1. pose proof (mem_request _ _ _ H1) as M1. assert (WF E s1) as W1 by (eapply wf_request; eauto). apply mute_request in H1.
  mbind H as u2 s2 H2. pose proof (mem_check _ _ _ _ H2) as M2. assert (WF E s2) as W2 by (eapply wf_check_image; eauto). apply mute_check in H2.
  destruct H1 as (C1 & T1 & E1 & n1 & L1 & S1). destruct H2 as (C2 & T2 & E2 & n2 & L2 & S2).
  assert (TxI E s2) as I2. { apply (TxI_same E s); auto. repeat split; [congruence| |]; unfold tab_of; congruence. }
  mbind H as u3 s3 H3. destruct (send_process_frames _ _ _ W2 I2 H3) as (n3 & L3 & S3).
  rewrite (enabled_cfg s s2) in S3 by congruence. rewrite (cyc_frames_cfg s s2) in S3 by (unfold keep_mem in *; congruence).
  apply send_process_cyc in H3. destruct H3 as (O3 & R3 & _). 
  mbind H as u4 s4 H4. apply mute_main in H4. destruct H4 as (C4 & T4 & E4 & n4 & L4 & S4). mbind H as c s0 H0. apply gets_inv in H0. destruct H0 as [-> ->].
  assert (n_cfg s4 = n_cfg s) as C by (destruct O3 as (O3 & _); congruence).
  assert (modat s2 0 = modat s 0) as M by (unfold modat, tab_of; congruence). rewrite M, E2, E1 in R3.
  assert (n_log s4 = n_log s ++ (n1 ++ n2 ++ n3 ++ n4)) as L by (rewrite L4, L3, L2, L1, <- !app_assoc; reflexivity).
  assert (sent (n1 ++ n2 ++ n3 ++ n4) = cyc_frames s (enabled s) (JUNK E)) as S by (rewrite !sent_app, S1, S2, S3, S4, app_nil_r; reflexivity).
  unfold err_count in H. rewrite E4 in H. destruct (Nat.eqb_spec (es_count (n_err s3)) 0) as [Z|Z].
  - rewrite Z in H. change (0 <? 0)%nat with false in H. cbv iota in H. apply ret_inv in H. destruct H as [_ ->].
    exists (n1 ++ n2 ++ n3 ++ n4), (n_err s3). unfold pending_errors. rewrite Z, app_nil_r. auto.
  - assert ((0 <? es_count (n_err s3))%nat = true) as Z1 by (apply Nat.ltb_lt; clear -Z; lia). rewrite Z1 in H. apply send_one_error_inv in H.
    + destruct H as (O5 & st & e & r & G & Er & n5 & L5 & S5). rewrite E4 in G. destruct (es_get_head _ _ _ _ Z G) as (-> & x & -> & l & P).
      exists ((n1 ++ n2 ++ n3 ++ n4) ++ n5), (n_err s3). unfold added. rewrite L5, L, P, sent_app, S. split; [rewrite <- !app_assoc; reflexivity|]. split; [exact R3|].
      f_equal. rewrite S5. change (ERR_OK =? ERR_OK) with true. cbv iota. cbn [flat_map]. rewrite app_nil_r. apply error_tx_cfg, C.
    + unfold tab_of. rewrite C. exact Hl.
    + intros i Hi. unfold modat, tab_of in *. rewrite C in *. apply Hn, Hi.
Qed.
Lemma request_frames pre id dlc data now s s' : Forall (plain E) pre -> reached E pre s -> step E (OpFrame MO_PROCESS id dlc data now) s = Ret (tt, s') ->
  exists new st, added s s' new /\ reports (m_nr (modat s 0)) (n_err s) st /\
    sent new = cyc_frames s (enabled s) (JUNK E) ++ match pending_errors st with [] => [] | e :: _ => error_tx s e end.
Proof. intros F R. eapply request_frames_I; eauto. eapply TxI_reached; eauto. Qed.

(** ** termination *)
Definition ends {A} (m : M A) : Prop := forall s, m s <> Hang.
Lemma ends_bind {A B} (m : M A) (k : A -> M B) : ends m -> (forall a, ends (k a)) -> ends (bind m k).
Proof. intros Hm Hk s. unfold bind. specialize (Hm s). destruct (m s) as [[a s1]| |]; [apply Hk|discriminate|congruence]. Qed.
Lemma ends_andthen m k : ends m -> ends k -> ends (andthen m k).
Proof. intros Hm Hk. apply ends_bind; auto. intro e. destruct (e =? ERR_OK); auto. intro; discriminate. Qed.
Lemma ends_for_err n i f : (forall j, ends (f j)) -> ends (for_err n i f).
Proof. intro H. revert i. induction n as [|n IH]; intro i; cbn [for_err]; [intro; discriminate|]. apply ends_bind; auto. intro e. destruct (e =? ERR_OK); auto. intro; discriminate. Qed.
Lemma ends_for_do n i f : (forall j, ends (f j)) -> ends (for_do n i f).
Proof. intro H. revert i. induction n as [|n IH]; intro i; cbn [for_do]; [intro; discriminate|]. apply ends_bind; auto. Qed.
Lemma ends_ask : ends ask.
Proof. intro s. unfold ask. destruct (n_orc s); discriminate. Qed.
Lemma ends_report a b c : ends (report a b c).
Proof. intro s. unfold report. destruct (syserr_send _ _ _ _) as [[? ?]|]; discriminate. Qed.
Lemma ends_get_error : ends get_error.
Proof. intro s. unfold get_error. destruct (es_get _) as [[? [? ?]]|]; discriminate. Qed.
Lemma ends_guard c : ends (guard c).
Proof. intro s. unfold guard. destruct c; discriminate. Qed.
End Send.
Ltac ends1 :=
  match goal with
  | |- ends (bind _ _) => refine (ends_bind _ _ _ _); [|intro]
  | |- ends (andthen _ _) => refine (ends_andthen _ _ _ _)
  | |- ends (for_err _ _ _) => refine (ends_for_err _ _ _ _); intro
  | |- ends (for_do _ _ _) => refine (ends_for_do _ _ _ _); intro
  | |- ends ask => exact ends_ask
  | |- ends (report _ _ _) => exact (ends_report _ _ _)
  | |- ends get_error => exact ends_get_error
  | |- ends (guard _) => exact (ends_guard _)
  | |- ends (if ?c then _ else _) => destruct c
  | |- ends (match ?x with _ => _ end) => destruct x
  | |- ends (ret _) => intro; discriminate
  | |- ends (gets _) => intro; discriminate
  | |- ends (modify _) => intro; discriminate
  | |- ends (emit _) => intro; discriminate
  | |- ends undef => intro; discriminate
  | |- ends (report_if _) => unfold report_if
  | |- ends (emit_cb _ _) => unfold emit_cb
  end.
Section Ends.
Variable E : env.
Hypothesis HE : env_ok E.
Lemma ends_send_one c can : ends (send_one E c can).
Proof. unfold send_one, tx_data_main, send_msg. cbv zeta. repeat ends1. Qed.
Lemma ends_send_all l : forall can, ends (send_all E l can).
Proof. induction l as [|c l IH]; intro can; cbn [send_all]; [ends1|]. apply ends_bind; [apply ends_send_one|auto]. Qed.
Lemma ends_sys_tx nr d : ends (sys_tx nr d).
Proof. unfold sys_tx, send_msg. repeat ends1. Qed.
Lemma ends_define_obj a b c d e f g : ends (define_obj E a b c d e f g).
Proof. unfold define_obj, hw_define. repeat ends1. Qed.
Lemma ends_call_rx f c a d : ends (call_rx f c a d).
Proof. unfold call_rx. repeat ends1. Qed.
Lemma ends_set_silent p st : ends (set_silent_awake E p st).
Proof. unfold set_silent_awake, sync_off, sync_on, tx_data_on, tx_data_off. repeat (simple apply ends_call_rx || ends1). Qed.
Lemma ends_part t on : ends (set_active_critical t on).
Proof. unfold set_active_critical, sync_off, sync_on, tx_data_on, tx_data_off. repeat (simple apply ends_call_rx || ends1). Qed.
Lemma ends_shared a b c d : ends (define_shared E a b c d).
Proof. unfold define_shared, get_async_ctrl_obj, next_free. repeat (simple apply ends_set_silent || simple apply ends_define_obj || ends1). Qed.
Lemma ends_cnfg a b c : ends (tx_data_cnfg E a b c).
Proof. unfold tx_data_cnfg. repeat ends1. Qed.
Lemma ends_change_nr_ids t n a : ends (change_nr_ids E t n a).
Proof. unfold change_nr_ids. repeat (simple apply ends_shared || simple apply ends_define_obj || simple apply ends_cnfg || ends1). Qed.
Lemma ends_set_module i d nr rxs txs : ends (set_module E i d nr rxs txs).
Proof. unfold set_module, rx_slot, rx_data_cnfg, next_free. repeat (simple apply ends_shared || simple apply ends_define_obj || simple apply ends_cnfg || ends1). Qed.
Lemma ends_baud r : ends (set_baudrate r).
Proof.
  unfold set_baudrate. apply ends_bind; [ends1|]. intro tab. generalize ERR_OK. induction tab as [|x tab IH]; intro e; cbn [set_baudrate_loop]; [ends1|].
  destruct (r =? x); [|apply IH]. unfold hw_set_baudrate. repeat (simple apply IH || ends1).
Qed.
Lemma ends_mode m : ends (set_node_mode m).
Proof. unfold set_node_mode. repeat ends1. Qed.
Lemma ends_at {A B} (m : M A) (k : A -> M B) s : m s <> Hang -> (forall a s1, m s = Ret (a, s1) -> k a s1 <> Hang) -> bind m k s <> Hang.
Proof. intros Hm Hk. unfold bind. destruct (m s) as [[a s1]| |]; [apply Hk; auto|discriminate|congruence]. Qed.
Lemma es_get_less st st' r : es_get st = Some (st', r) -> es_count st <> 0%nat -> (es_count st' < es_count st)%nat.
Proof.
  destruct st as [size q|sl]; cbn [es_get es_count].
  - unfold eq_get_full, eq_count. destruct (q_ready q) eqn:Q; cbn [negb]; [|congruence]. destruct (Nat.eqb_spec (q_count q) 0); [congruence|].
    destruct (nth_error _ _); [|discriminate]. intros H _. injection H as <- _. cbn. lia.
  - intros H N. injection H as <- _. cbn. lia.
Qed.
Lemma ends_send_error x : ends (send_error x).
Proof. unfold send_error. repeat (simple apply ends_sys_tx || ends1). Qed.
Lemma err_sys_tx nr d s u s' : sys_tx nr d s = Ret (u, s') -> n_err s' = n_err s.
Proof. apply (ltac:(unfold sys_tx, send_msg; pres_tac; reflexivity) : pres (fun s s' => n_err s' = n_err s) (sys_tx nr d)). Qed.
Lemma ends_drain n : forall s, (err_count s <= n)%nat -> drain_errors n s <> Hang.
Proof.
  induction n as [|n IH]; intros s L; cbn [drain_errors]; unfold bind at 1; cbn [gets].
  - destruct (Nat.eqb_spec (err_count s) 0); [discriminate|lia].
  - destruct (Nat.eqb_spec (err_count s) 0) as [|N]; [discriminate|]. apply ends_at.
    + unfold send_one_error. apply ends_bind; [apply ends_get_error|]. intros [x|]; [apply ends_send_error|ends1].
    + intros u s1 H1. apply IH. unfold send_one_error in H1. mbind H1 as x s2 H2. unfold get_error in H2. destruct (es_get (n_err s)) as [[st [e r]]|] eqn:G; [|discriminate].
      injection H2 as <- <-. apply es_get_less in G; [|exact N]. unfold err_count in *. enough (n_err s1 = st) as -> by lia.
      destruct (if e =? ERR_OK then r else None) as [x|]; [|apply ret_inv in H1; destruct H1 as [_ ->]; reflexivity].
      unfold send_error in H1. revert H1. match goal with |- ?m _ = _ -> _ => assert (pres (fun s s' => n_err s' = n_err s) m) as P by (unfold sys_tx, send_msg; pres_tac; reflexivity) end.
      intro H1. apply P in H1. exact H1.
Qed.
Lemma ends_drain_all : ends (c <- gets err_count ;; drain_errors c ;;; ret ERR_OK).
Proof. intro s. unfold bind at 1. cbn [gets]. apply ends_at; [apply ends_drain; lia|discriminate]. Qed.
Lemma ends_sys_cmd bc p nr src : ends (sys_cmd E bc p nr src).
Proof.
  unfold sys_cmd, sys_silent_awake, status_ackn, version_ackn, set_cycle_time, change_nr, change_type.
  repeat (simple apply ends_drain_all || simple apply ends_sys_tx || simple apply ends_mode || simple apply ends_baud || simple apply ends_change_nr_ids || simple apply ends_set_silent || simple apply ends_cnfg || ends1).
Qed.
Lemma ends_check now : ends (check_image now).
Proof.
  assert (forall n first, ends (check_modules n first now)) as Hc. { induction n as [|n IH]; intro first; cbn [check_modules]; unfold check_module; repeat (simple apply IH || ends1). }
  unfold check_image, clear_image. repeat (simple apply Hc || ends1).
Qed.
Lemma tx_on_data mo id dlc data : pres same_tx (on_data E mo id dlc data).
Proof. unfold on_data, rx_data_main. repeat ((simple apply pres_call_rx; try typeclasses eauto; intros) || pres_tac1); tx_leaf. Qed.
Lemma tx_request : pres same_tx process_request_rx.
Proof. unfold process_request_rx. pres_tac; tx_leaf. Qed.
Lemma tx_check now : pres same_tx (check_image now).
Proof.
  assert (forall n first, pres same_tx (check_modules n first now)) as Hc.
  { induction n as [|n IH]; intro first; cbn [check_modules]; [pres_tac|]. unfold check_module. repeat (simple apply IH || pres_tac1); tx_leaf. }
  unfold check_image, clear_image. repeat (simple apply Hc || pres_tac1); tx_leaf.
Qed.
Lemma ends_step_I o pre s : TxI E s -> reached E pre s -> step E o s <> Hang.
Proof.
  intros I R. pose proof (WF_reached E _ _ R) as W. destruct o; cbn [step].
  { unfold frame_rx. apply ends_at; [discriminate|]. intros sy s0 H0. apply gets_inv in H0. destruct H0 as [-> ->].
    apply ends_at. { destruct (is_sync_mo mo s); [|discriminate]. apply (ltac:(unfold on_data, rx_data_main; repeat (simple apply ends_call_rx || ends1)) : ends (on_data E mo id dlc data)). }
    intros u s1 H1. assert (WF E s1 /\ TxI E s1) as [W1 I1].
    { destruct (is_sync_mo mo s); [|apply ret_inv in H1; destruct H1 as [_ ->]; auto]. split; [eapply wf_on_data; eauto|]. apply tx_on_data in H1. eapply TxI_same; eauto. }
    clear H1 R W I. apply ends_at.
    - destruct (mo =? MO_PROCESS)%nat; [|discriminate]. unfold on_process.
      apply ends_at; [unfold process_request_rx; match goal with |- ?m _ <> Hang => apply (ltac:(repeat ends1) : ends m) end|]. intros u2 s2 H2.
      assert (WF E s2) as W2 by (eapply wf_request; eauto). apply tx_request in H2. pose proof (TxI_same E _ _ H2 I1) as I2. clear H2.
      apply ends_at; [apply ends_check|]. intros u3 s3 H3. assert (WF E s3) as W3 by (eapply wf_check_image; eauto). apply tx_check in H3. pose proof (TxI_same E _ _ H3 I2) as I3. clear H3.
      apply ends_at; [rewrite (send_process_all E HE s3 W3 I3); apply ends_send_all|]. intros u4 s4 H4. clear H4.
      match goal with |- ?m _ <> Hang => apply (ltac:(unfold rx_process_main, send_one_error, send_error; repeat (simple apply ends_sys_tx || ends1)) : ends m) end.
    - intros u2 s2 _. destruct (_ || _); [|discriminate]. unfold on_sys, sys_msg_rx. match goal with |- ?m _ <> Hang => apply (ltac:(repeat (simple apply ends_sys_cmd || ends1)) : ends m) end. }
  all: match goal with |- ?m _ <> Hang => apply (ltac:(unfold ignore, add_module, set_silent_awake_type_nr, change_type_add, set_image_cb, trigger_period, get_period, set_cycle_time; repeat (simple apply ends_set_module || simple apply ends_set_silent || simple apply ends_part || simple apply ends_change_nr_ids || simple apply ends_mode || simple apply ends_baud || ends1)) : ends m) end.
Qed.
Lemma ends_step o pre s : Forall (plain E) pre -> reached E pre s -> step E o s <> Hang.
Proof. intros F R. eapply ends_step_I; eauto. eapply TxI_reached; eauto. Qed.
End Ends.
