(** System messages: effects of the single commands. *)
From Verif Require Import Words WordsFacts Bits ErrModel NodeModel NodeLib NodeInv NodeSpec NodeHw NodeCnt NodeSync NodeImage NodeFirst NodeSilent NodePres.

Lemma sent_app a b : sent (a ++ b) = sent a ++ sent b.
Proof. induction a as [|e a IH]; cbn; auto. destruct e; cbn; rewrite ?IH; auto. Qed.

Section SysP.
Variable E : env.

(** *** a system frame reaches only the system handler *)
Lemma sys_mo_reserved mo : sys_mo E mo = true -> In mo (reserved E) /\ (mo =? MO_PROCESS)%nat = false.
Proof.
  unfold sys_mo. intro H. apply orb_prop in H. destruct H as [H|H].
  - apply Nat.eqb_eq in H. subst. split; [right; left; reflexivity|reflexivity].
  - apply andb_prop in H. destruct H as [S H]. apply Nat.eqb_eq in H. subst. split; [|reflexivity]. unfold reserved. rewrite S. cbn. auto.
Qed.
Lemma step_sys mo id dlc data now s r : HwI E s -> sys_mo E mo = true ->
  step E (OpFrame mo id dlc data now) s = Ret r -> on_sys E id dlc data s = Ret r.
Proof.
  intros HI Hm H. destruct (sys_mo_reserved _ Hm) as [Hr Hp]. cbn [step] in H. unfold frame_rx in H.
  destruct r as [[] s']. mbind H as sy s0 H0. apply gets_inv in H0. destruct H0 as [-> ->]. mbind H as u s1 H1.
  assert (s1 = s) as ->.
  { destruct (is_sync_mo mo s); [|minv_all; auto]. destruct u. apply on_data_inv in H1. rewrite (owner_reserved E) in H1; auto. }
  mbind H as u2 s2 H2. rewrite Hp in H2. apply ret_inv in H2. destruct H2 as [_ ->]. fold (sys_mo E mo) in H. rewrite Hm in H. exact H.
Qed.
Lemma on_sys_eq id dlc data : on_sys E id dlc data = (e <- sys_msg_rx E (id_nr id) dlc data ;; report_if e).
Proof. unfold on_sys, id_nr. rewrite shiftr2, land127. reflexivity. Qed.

Lemma report_if_inv e s s' : report_if e s = Ret (tt, s') ->
  if e =? ERR_OK then s' = s
  else s' = set_n_err s (n_err s') /\ exists r, syserr_send (n_err s) e LVL_INFO (nr_main s) = Some (n_err s', r).
Proof.
  unfold report_if. destruct (e =? ERR_OK); intro H; [minv_all; auto|].
  mbind H as nr s0 H0. apply gets_inv in H0. destruct H0 as [-> ->]. unfold report in H.
  destruct (syserr_send _ _ _ _) as [[st x]|]; [|discriminate]. injection H as <-. split; [reflexivity|]. exists x. reflexivity.
Qed.

(** *** C13 *)
Lemma wrong_dlc pre mo id dlc data now s s' : reached E pre s -> sys_mo E mo = true -> dlc <> 8 ->
  step E (OpFrame mo id dlc data now) s = Ret (tt, s') ->
  s' = set_n_err s (n_err s') /\ exists r, syserr_send (n_err s) E_SYS_DLC LVL_INFO (m_nr (modat s 0)) = Some (n_err s', r).
Proof.
  intros R Hm Hd H. apply step_sys in H; auto; [|eapply HwI_reached; eauto]. rewrite on_sys_eq in H. mbind H as e s1 H1.
  unfold sys_msg_rx in H1. destruct (N.eqb_spec dlc 8); [congruence|]. cbn [negb] in H1. apply ret_inv in H1. destruct H1 as [-> ->].
  apply report_if_inv in H. exact H.
Qed.

(** *** lookups *)
Lemma find_nr_entry tab nr k : find_nr tab nr k = find (fun p => m_nr (nth (p - k) tab modl0) =? nr) (seq k (length tab)).
Proof.
  revert k. induction tab as [|m tab IH]; intro k; cbn [find_nr length seq find]; auto.
  rewrite Nat.sub_diag. cbn [nth]. destruct (m_nr m =? nr); auto. rewrite IH.
  assert (forall l, (forall p, In p l -> (S k <= p)%nat) ->
    find (fun p => m_nr (nth (p - S k) tab modl0) =? nr) l = find (fun p => m_nr (nth (p - k) (m :: tab) modl0) =? nr) l) as X.
  { induction l as [|p l IHl]; cbn; auto. intro Hl. rewrite IHl by auto. replace (p - k)%nat with (S (p - S k)) by (specialize (Hl p (or_introl eq_refl)); lia). reflexivity. }
  apply X. intros p Hp. apply in_seq in Hp. lia.
Qed.
Lemma find_nr_of s nr : find_nr (tab_of s) nr 0 = entry_of_nr s nr.
Proof.
  rewrite find_nr_entry. unfold entry_of_nr, modat. induction (seq 0 (length (tab_of s))) as [|p l IH]; cbn; auto.
  rewrite Nat.sub_0_r, IH. reflexivity.
Qed.
Lemma entry_lt s nr p : entry_of_nr s nr = Some p -> (p < length (tab_of s))%nat /\ m_nr (modat s p) = nr.
Proof. intro H. apply find_some in H. destruct H as [H1 H2]. apply in_seq in H1. split; lia. Qed.
Lemma entry_none s nr : entry_of_nr s nr = None <-> forall p, (p < length (tab_of s))%nat -> m_nr (modat s p) <> nr.
Proof.
  split.
  - intros H p Hp X. pose proof (find_none _ _ H p) as F. cbn in F. rewrite X, N.eqb_refl in F. assert (In p (seq 0 (length (tab_of s)))) as I by (apply in_seq; lia).
    specialize (F I). discriminate.
  - intros H. destruct (entry_of_nr s nr) as [p|] eqn:F; auto. apply entry_lt in F. destruct F as [F1 F2]. exfalso. eapply H; eauto.
Qed.
Lemma find_first f n i : (i < n)%nat -> f i = true -> (forall j, (j < i)%nat -> f j = false) -> find f (seq 0 n) = Some i.
Proof.
  intros Hi Hf Hj. assert (forall k m, (k <= i)%nat -> (i < k + m)%nat -> find f (seq k m) = Some i) as X.
  { intros k m. revert k. induction m as [|m IH]; intros k Hk Hm; [lia|]. cbn. destruct (Nat.eq_dec k i) as [->|Nk].
    - rewrite Hf. reflexivity.
    - rewrite Hj by lia. apply IH; lia. }
  apply X; lia.
Qed.
Lemma entry_own s i : (i < nmod s)%nat -> (i < length (tab_of s))%nat -> numbers_differ s -> entry_of_nr s (m_nr (modat s i)) = Some i.
Proof.
  intros Hi Hl D. apply find_first; auto. { apply N.eqb_refl. }
  intros j Hj. apply N.eqb_neq. apply D; auto.
Qed.

(** *** C14 *)
Lemma unknown_number pre mo id dlc data now s s' : reached E pre s -> sys_mo E mo = true -> dlc = 8 -> id_nr id <> 1 ->
  (forall p, (p < length (tab_of s))%nat -> m_nr (modat s p) <> id_nr id) ->
  step E (OpFrame mo id dlc data now) s = Ret (tt, s') -> s' = s.
Proof.
  intros R Hm -> Hb Hn H. apply step_sys in H; auto; [|eapply HwI_reached; eauto]. rewrite on_sys_eq in H. mbind H as e s1 H1.
  unfold sys_msg_rx in H1. cbn [negb] in H1. change (8 =? 8) with true in H1. cbn [negb] in H1. unfold NR_BROADCAST in H1. destruct (N.eqb_spec (id_nr id) 1); [congruence|].
  mbind H1 as tab s0 H0. apply gets_inv in H0. destruct H0 as [-> ->]. rewrite find_nr_of in H1. rewrite (proj2 (entry_none _ _) Hn) in H1.
  apply ret_inv in H1. destruct H1 as [-> ->]. apply report_if_inv in H. exact H.
Qed.

Lemma known_cmd_of x : known_cmd x = false -> cmd_of x = CUnknown \/ cmd_of x = CErrRx \/ cmd_of x = CHwVersion \/ cmd_of x = CRxRate \/ cmd_of x = CShow.
Proof.
  unfold known_cmd, cmd_of. cbn [existsb]. intro H.
  repeat match goal with |- context [if ?x =? ?c then _ else _] => destruct (N.eqb_spec x c); [subst; try discriminate; tauto|] end. tauto.
Qed.
Lemma unknown_command pre mo id dlc data now s s' : reached E pre s -> sys_mo E mo = true -> dlc = 8 ->
  (if id_nr id =? 1 then nmod s <> 0%nat else exists p, (p < length (tab_of s))%nat /\ m_nr (modat s p) = id_nr id) ->
  known_cmd (byte_at data 0) = false ->
  step E (OpFrame mo id dlc data now) s = Ret (tt, s') ->
  s' = set_n_err s (n_err s') /\ exists e r, e <> ERR_OK /\ syserr_send (n_err s) e LVL_INFO (m_nr (modat s 0)) = Some (n_err s', r).
Proof.
  intros R Hm -> Hn Hk H. apply step_sys in H; auto; [|eapply HwI_reached; eauto]. rewrite on_sys_eq in H. mbind H as e s1 H1.
  assert (s1 = s /\ e <> ERR_OK) as [-> Ne].
  { assert (forall bc pos nr, sys_cmd E bc pos nr data s = Ret (e, s1) -> s1 = s /\ e <> ERR_OK) as X.
    { intros bc pos nr Hc. unfold sys_cmd in Hc. mbind Hc as n s0 H0. apply gets_inv in H0. destruct H0 as [-> ->]. unfold b in Hc. unfold byte_at in Hk.
      destruct (known_cmd_of _ Hk) as [C|[C|[C|[C|C]]]]; rewrite C in Hc; apply ret_inv in Hc; destruct Hc as [-> ->]; split; try reflexivity; discriminate. }
    unfold sys_msg_rx in H1. change (8 =? 8) with true in H1. cbn [negb] in H1. unfold NR_BROADCAST in H1. destruct (id_nr id =? 1).
    - mbind H1 as n s0 H0. apply gets_inv in H0. destruct H0 as [-> ->]. destruct (Nat.eqb_spec (nmod s) 0); [congruence|]. eapply X, H1.
    - mbind H1 as tab s0 H0. apply gets_inv in H0. destruct H0 as [-> ->]. rewrite find_nr_of in H1. destruct (entry_of_nr s (id_nr id)) eqn:F.
      + eapply X, H1.
      + destruct Hn as (p & Hp & Hq). exfalso. eapply entry_none; eauto. }
  apply report_if_inv in H. destruct (N.eqb_spec e ERR_OK); [congruence|]. destruct H as [H [r Hr]]. split; auto. exists e, r. auto.
Qed.

(** *** sending *)
Lemma send_msg_inv id dlc data s e s' : send_msg id dlc data s = Ret (e, s') ->
  only_tx s s' /\ n_err s' = n_err s /\ dlc <= 8 /\
  exists ok, n_log s' = n_log s ++ [EvTx id dlc (firstn (N.to_nat dlc) data) ok] /\ (e = ERR_OK <-> ok = true).
Proof.
  unfold send_msg. intro H. mbind H as u s1 H1. destruct (dlc <=? 8) eqn:L; [|discriminate]. apply ret_inv in H1. destruct H1 as [_ ->].
  mbind H as ok s1 H1. mbind H as u2 s2 H2. unfold emit in H2. apply modify_inv in H2. apply ret_inv in H. destruct H as [-> ->]. subst s2.
  unfold ask in H1. destruct (n_orc s); injection H1 as <- <-; (split; [repeat split|]; split; [reflexivity|]; split; [lia|]); eexists; (split; [reflexivity|]); cbn; try tauto.
  destruct b; split; intro; try reflexivity; discriminate.
Qed.
Lemma can_ident_sys nr : 1 <= nr -> nr < 16000 -> can_ident BASE_SYS_TX nr 0 = sys_tx_id nr.
Proof.
  intros H1 H2. unfold can_ident, sys_tx_id, BASE_SYS_TX, u16. change (N.of_nat 0) with 0.
  replace (3 + (nr + 65535) * 4 + 0) with (3 + 4 * (nr - 1) + 4 * 65536) by lia. rewrite N.mod_add by lia. apply N.mod_small. lia.
Qed.
Lemma only_tx_refl s : only_tx s s.
Proof. repeat split. Qed.
Lemma only_tx_trans a b c : only_tx a b -> only_tx b c -> only_tx a c.
Proof. intros (A1 & A2 & A3 & A4 & A5 & A6) (B1 & B2 & B3 & B4 & B5 & B6). repeat split; congruence. Qed.
Lemma only_tx_tab s s' : only_tx s s' -> tab_of s' = tab_of s /\ (forall nr, speaks s' nr = speaks s nr) /\ (forall p, modat s' p = modat s p) /\ nmod s' = nmod s /\
  (forall p, awake s' p = awake s p).
Proof.
  intros (C & _). unfold speaks, entry_of_nr, awake, silat, modat, tab_of, nmod. rewrite C. repeat split; reflexivity.
Qed.
Lemma sys_tx_inv nr data s u s' : 1 <= nr -> nr < 16000 -> sys_tx nr data s = Ret (u, s') ->
  only_tx s s' /\ n_err s' = n_err s /\ exists new, n_log s' = n_log s ++ new /\
  sent new = (if speaks s nr then [(sys_tx_id nr, 8, firstn 8 data)] else []) /\ (forall e, In e new -> exists ok, e = EvTx (sys_tx_id nr) 8 (firstn 8 data) ok).
Proof.
  intros N1 N2 H. unfold sys_tx in H. mbind H as tab s0 H0. apply gets_inv in H0. destruct H0 as [-> ->]. rewrite find_nr_of in H.
  unfold speaks. destruct (entry_of_nr s nr) as [p|].
  - mbind H as st s0 H0. apply gets_inv in H0. destruct H0 as [-> ->]. unfold awake. destruct (silat s p =? AWAKE).
    + mbind H as e s1 H1. apply ret_inv in H. destruct H as [_ ->]. apply send_msg_inv in H1. destruct H1 as (O & Er & _ & ok & L & _).
      rewrite can_ident_sys in L by auto. split; auto. split; auto. eexists. split; [exact L|]. split; [reflexivity|]. intros e0 [<-|[]]. eauto.
    + apply ret_inv in H. destruct H as [_ ->]. split; [apply only_tx_refl|]. split; auto. exists []. rewrite app_nil_r. split; [reflexivity|]. split; [reflexivity|]. intros e0 [].
  - apply ret_inv in H. destruct H as [_ ->]. split; [apply only_tx_refl|]. split; auto. exists []. rewrite app_nil_r. split; [reflexivity|]. split; [reflexivity|]. intros e0 [].
Qed.

(** *** reading the error memory empty *)
Lemma send_one_error_inv s u s' : (0 < length (tab_of s))%nat -> numbers_ok s -> send_one_error s = Ret (u, s') ->
  only_tx s s' /\ exists st e r, es_get (n_err s) = Some (st, (e, r)) /\ n_err s' = st /\ exists new, n_log s' = n_log s ++ new /\
  sent new = flat_map (error_tx s) (if e =? ERR_OK then match r with Some x => [x] | None => [] end else []).
Proof.
  intros Hl Hn H. unfold send_one_error in H. mbind H as o s1 H1. unfold get_error in H1.
  destruct (es_get (n_err s)) as [[st [e r]]|] eqn:G; [|discriminate]. injection H1 as <- <-.
  assert (forall x, only_tx s x <-> only_tx (set_n_err s st) x) as Ox by (intro x; unfold only_tx; cbn; tauto).
  destruct (if e =? ERR_OK then r else None) as [x|] eqn:Ee.
  - unfold send_error in H. mbind H as main s2 H2. apply gets_inv in H2. destruct H2 as [-> ->].
    assert ((if (NR_MAX <? e_module x) || (e_module x <? NR_MIN) then nr_main (set_n_err s st) else e_module x) = error_nr s x) as X.
    { unfold error_nr, NR_MAX, NR_MIN. change (nr_main (set_n_err s st)) with (m_nr (modat s 0)). clear.
      destruct (124 <? e_module x) eqn:A; destruct (e_module x <? 2) eqn:B; cbn [orb].
      all: match goal with |- _ = (if ?c then _ else _) => destruct c eqn:C; try reflexivity; lia end. }
    rewrite X in H. clear X.
    assert (1 <= error_nr s x <= 255) as [N1 N2].
    { unfold error_nr. destruct ((2 <=? e_module x) && (e_module x <=? 124)) eqn:C; [lia|]. apply Hn. exact Hl. }
    apply sys_tx_inv in H; [|lia|lia]. destruct H as (O & Er & new & L & S & _). split; [apply Ox; exact O|]. exists st, e, r.
    split; auto. split; [exact Er|]. exists new. split; [exact L|]. rewrite S.
    destruct (e =? ERR_OK); [|discriminate]. subst r. cbn [flat_map]. rewrite app_nil_r. unfold error_tx. reflexivity.
  - apply ret_inv in H. destruct H as [_ ->]. split; [apply Ox; repeat split|]. exists st, e, r. split; auto. split; [reflexivity|].
    exists []. rewrite app_nil_r. split; [reflexivity|]. destruct (e =? ERR_OK); [subst r|]; reflexivity.
Qed.
Lemma error_tx_only s s' e : only_tx s s' -> error_tx s' e = error_tx s e.
Proof. intro O. apply only_tx_tab in O. destruct O as (_ & S & M & _). unfold error_tx, error_nr. rewrite !M, S. reflexivity. Qed.
Lemma numbers_only s s' : only_tx s s' -> numbers_ok s -> numbers_ok s'.
Proof. intros O N. apply only_tx_tab in O. destruct O as (T & _ & M & _). unfold numbers_ok. rewrite T. intros i Hi. rewrite M. auto. Qed.
Lemma drain_inv fuel : forall s u s', (0 < length (tab_of s))%nat -> numbers_ok s -> drain_errors fuel s = Ret (u, s') ->
  only_tx s s' /\ es_count (n_err s') = 0%nat /\ exists new, n_log s' = n_log s ++ new /\
  sent new = flat_map (error_tx s) (pending_n fuel (n_err s)).
Proof.
  induction fuel as [|f IH]; intros s u s' Hl Hn H; cbn [drain_errors pending_n] in *; mbind H as c s0 H0; apply gets_inv in H0; destruct H0 as [-> ->];
    unfold err_count in H; destruct (Nat.eqb_spec (es_count (n_err s)) 0) as [Z|Z].
  - apply ret_inv in H. destruct H as [_ ->]. split; [apply only_tx_refl|]. split; auto. exists []. rewrite app_nil_r. auto.
  - discriminate.
  - apply ret_inv in H. destruct H as [_ ->]. split; [apply only_tx_refl|]. split; auto. exists []. rewrite app_nil_r. auto.
  - mbind H as u1 s1 H1. apply send_one_error_inv in H1; auto. destruct H1 as (O & st & e & r & G & Er & new & L & S).
    apply IH in H; [|destruct (only_tx_tab _ _ O) as (-> & _); auto|eapply numbers_only; eauto]. destruct H as (O2 & C2 & new2 & L2 & S2).
    split; [eapply only_tx_trans; eauto|]. split; auto. exists (new ++ new2). split; [rewrite L2, L, app_assoc; auto|].
    rewrite sent_app, S, S2, G, Er, flat_map_app. f_equal. apply flat_map_ext. intro x. apply error_tx_only, O.
Qed.

(** *** status request *)
Lemma strn_cpy_type n type : strn_cpy n type = map (fun i => if existsb (N.eqb 0) (firstn i type) then 0 else nth i type 0) (seq 0 n).
Proof.
  assert (forall (f : nat -> N) l, (forall i, f i = 0) -> map f l = repeat 0 (length l)) as Z.
  { intros f l Hf. induction l as [|i l IHl]; cbn; rewrite ?IHl, ?Hf; auto. }
  revert type. induction n as [|n IH]; intro type; [reflexivity|]. cbn [strn_cpy]. destruct type as [|x t]; cbn [hd tl].
  - change (0 =? 0) with true. cbv iota. rewrite Z, seq_length; auto. intros [|i]; reflexivity.
  - cbn [seq map firstn existsb nth]. rewrite <- seq_shift, map_map. destruct (N.eqb_spec x 0) as [->|Nx].
    + cbn [repeat]. f_equal. rewrite Z, seq_length; auto. 
    + f_equal. rewrite IH. apply map_ext. intro i. cbn [firstn existsb nth]. destruct (N.eqb_spec 0 x); [congruence|]. reflexivity.
Qed.
Lemma u8_shift x n : u8 (N.shiftr x (8 * n)) = byte_n x n.
Proof. unfold u8, byte_n. rewrite N.shiftr_div_pow2, N.pow_mul_r. reflexivity. Qed.
Lemma u8_byte x : u8 x = byte_n x 0.
Proof. unfold u8, byte_n. rewrite N.pow_0_r, N.div_1_r. reflexivity. Qed.
Lemma status_frame_spec type serial : status_frame type serial = [4] ++ type4 type ++ [byte_n serial 2; byte_n serial 1; byte_n serial 0].
Proof.
  unfold status_frame. rewrite strn_cpy_type. fold (type4 type). cbn [app].
  rewrite (u8_shift serial 2 : u8 (N.shiftr serial 16) = _), (u8_shift serial 1 : u8 (N.shiftr serial 8) = _), u8_byte. reflexivity.
Qed.
Lemma status_data_len type x y z : length ([4] ++ type4 type ++ [x; y; z]) = 8%nat.
Proof. reflexivity. Qed.

Lemma listen_only_tx s s' : only_tx s s' -> listen_only s' = listen_only s.
Proof. intros (_ & _ & H & _). unfold listen_only. rewrite H. reflexivity. Qed.

Definition ack_effect (s s' : node) (e : N) (fr : list (N * N * list byte)) : Prop :=
  e = ERR_OK /\ only_tx s s' /\ n_err s' = n_err s /\ exists new, n_log s' = n_log s ++ new /\ sent new = (if listen_only s then [] else fr).
Lemma ack_nil s : ack_effect s s ERR_OK [].
Proof. split; auto. split; [apply only_tx_refl|]. split; auto. exists []. rewrite app_nil_r. destruct (listen_only s); auto. Qed.
Lemma status_ackn_inv pos s e s' : (pos < MAXM E)%nat -> (pos < length (tab_of s))%nat -> numbers_ok s -> status_ackn E pos s = Ret (e, s') ->
  ack_effect s s' e (if speaks s (m_nr (modat s pos)) then [status_tx E s pos] else []).
Proof.
  intros Hp Hl Hn H. unfold status_ackn in H. mbind H as mode s0 H0. apply gets_inv in H0. destruct H0 as [-> ->].
  unfold ack_effect. fold (listen_only s) in H. destruct (listen_only s) eqn:Lo.
  - apply ret_inv in H. destruct H as [-> ->]. pose proof (ack_nil s) as X. unfold ack_effect in X. rewrite Lo in X. exact X.
  - destruct (Nat.leb_spec (MAXM E) pos) as [X|X]; [lia|]. mbind H as m s0 H0. apply gets_inv in H0. destruct H0 as [-> ->].
    mbind H as u s1 H1. apply ret_inv in H. destruct H as [-> ->]. destruct (Hn pos Hl) as [N1 N2].
    apply sys_tx_inv in H1; [|lia|lia]. destruct H1 as (O & Er & new & L & S & _). split; auto. split; auto. split; auto. exists new. split; auto.
    rewrite S, status_frame_spec, firstn_all2 by (rewrite status_data_len; lia). unfold status_tx. reflexivity.
Qed.
Lemma for_ack (f : nat -> M N) (fr : node -> nat -> list (N * N * list byte)) :
  (forall a b i, only_tx a b -> fr b i = fr a i) ->
  forall n k s e s', (k + n <= MAXM E)%nat -> (k + n <= length (tab_of s))%nat -> numbers_ok s ->
  (forall i s e s', (i < MAXM E)%nat -> (i < length (tab_of s))%nat -> numbers_ok s -> f i s = Ret (e, s') -> ack_effect s s' e (fr s i)) ->
  for_err n k f s = Ret (e, s') -> ack_effect s s' e (flat_map (fr s) (seq k n)).
Proof.
  intros Hfr. induction n as [|n IH]; intros k s e s' Hk Hl Hn Hf H; cbn [for_err seq flat_map] in *.
  - apply ret_inv in H. destruct H as [-> ->]. apply ack_nil.
  - mbind H as e1 s1 H1. apply Hf in H1; auto; try lia. destruct H1 as (-> & O & Er & new & L & S). change (ERR_OK =? ERR_OK) with true in H. cbv iota in H.
    apply IH in H; auto; try lia; [|destruct (only_tx_tab _ _ O) as (-> & _); lia|eapply numbers_only; eauto].
    destruct H as (-> & O2 & Er2 & new2 & L2 & S2). split; auto. split; [eapply only_tx_trans; eauto|]. split; [congruence|].
    exists (new ++ new2). split; [rewrite L2, L, app_assoc; auto|]. rewrite sent_app, S, S2, (listen_only_tx _ _ O). destruct (listen_only s); auto.
    f_equal. apply flat_map_ext. intro i. apply Hfr, O.
Qed.
Lemma speaks_own s i : (i < nmod s)%nat -> (i < length (tab_of s))%nat -> numbers_differ s -> speaks s (m_nr (modat s i)) = awake s i.
Proof. intros. unfold speaks. rewrite entry_own; auto. Qed.
Lemma flat_map_in {A B} (f g : A -> list B) l : (forall x, In x l -> f x = g x) -> flat_map f l = flat_map g l.
Proof. induction l as [|x l IH]; cbn; auto. intro H. rewrite IH, H; auto. Qed.


Lemma sys_dispatch id data s r l : (nmod s <= length (tab_of s))%nat -> numbers_differ s -> addressed s id l ->
  sys_msg_rx E (id_nr id) 8 data s = Ret r ->
  exists bc pos, sys_cmd E bc pos (id_nr id) data s = Ret r /\ l = (if bc : bool then seq 0 (nmod s) else [pos]) /\ (bc = false -> (pos < nmod s)%nat) /\
    (bc = true <-> id_nr id = 1) /\ nmod s <> 0%nat.
Proof.
  intros Hl D A H. unfold sys_msg_rx in H. change (8 =? 8) with true in H. cbn [negb] in H. unfold NR_BROADCAST in H. destruct A as [(B & Nz & ->)|(B & p & Hp & Hq & ->)].
  - rewrite B in H. change (1 =? 1) with true in H. cbv iota in H. destruct r as [e s']. mbind H as n s0 H0. apply gets_inv in H0. destruct H0 as [-> ->].
    destruct (Nat.eqb_spec (nmod s) 0); [congruence|]. exists true, 0%nat. rewrite B. repeat split; auto; discriminate.
  - destruct (N.eqb_spec (id_nr id) 1); [congruence|]. destruct r as [e s']. mbind H as tab s0 H0. apply gets_inv in H0. destruct H0 as [-> ->].
    rewrite find_nr_of, Hq in H. rewrite entry_own in H; auto; [|lia]. exists false, p. rewrite Hq. repeat split; auto; try discriminate; try congruence; lia.
Qed.

Lemma status_request pre mo id data now s s' l : env_ok E -> reached E pre s -> sys_mo E mo = true -> numbers_ok s -> numbers_differ s ->
  addressed s id l -> byte_at data 0 = 1 ->
  step E (OpFrame mo id 8 data now) s = Ret (tt, s') ->
  exists new, n_log s' = n_log s ++ new /\
  sent new = (if listen_only s then [] else of_awake s (fun i => [status_tx E s i]) l) ++ flat_map (error_tx s) (pending_errors (n_err s)) /\
  es_count (n_err s') = 0%nat.
Proof.
  intros HE R Hm Hn D A Hb H. destruct (WF_reached E _ _ R) as (Wc & _ & _ & _).
  assert (length (tab_of s) = MAXM E /\ (nmod s <= MAXM E)%nat) as [Lt Nm].
  { split; [apply Wc|eapply nmod_le; eauto]. }
  apply step_sys in H; auto; [|eapply HwI_reached; eauto]. rewrite on_sys_eq in H. mbind H as e s1 H1.
  eapply sys_dispatch in H1; eauto; [|lia]. destruct H1 as (bc & pos & H1 & -> & Hpos & _ & Nz).
  unfold sys_cmd in H1. mbind H1 as n s0 H0. apply gets_inv in H0. destruct H0 as [-> ->]. change (b data 0) with (byte_at data 0) in H1. rewrite Hb in H1.
  change (cmd_of 1) with CStatus in H1. cbv iota in H1. mbind H1 as z s0 H0. apply gets_inv in H0. destruct H0 as [-> ->]. mbind H1 as u s2 H2.
  assert (exists n0, n_log s2 = n_log s ++ n0 /\ sent n0 = [] /\ n_cfg s2 = n_cfg s /\ n_hw s2 = n_hw s /\ n_err s2 = n_err s) as (n0 & L0 & S0 & C0 & W0 & E0).
  { destruct (z_first (n_sys s)).
    - apply ret_inv in H2. destruct H2 as [_ ->]. exists []. rewrite app_nil_r. auto.
    - mbind H2 as u3 s3 H3. apply modify_inv in H3. unfold emit in H2. apply modify_inv in H2. subst s2 s3. cbn. eexists. repeat split; reflexivity. }
  assert (tab_of s2 = tab_of s) as T2 by (unfold tab_of; rewrite C0; reflexivity).
  assert (forall i, modat s2 i = modat s i) as M2 by (intro; unfold modat; rewrite T2; reflexivity).
  assert (numbers_ok s2) as Hn2. { unfold numbers_ok. rewrite T2. intros i Hi. rewrite M2. auto. }
  assert (forall nr, speaks s2 nr = speaks s nr) as Sp2. { intro. unfold speaks, entry_of_nr, awake, silat. rewrite T2, C0. unfold modat. rewrite T2. reflexivity. }
  assert (listen_only s2 = listen_only s) as Lo2 by (unfold listen_only; rewrite W0; reflexivity).
  unfold andthen in H1. mbind H1 as e1 s3 H3.
  assert (ack_effect s2 s3 e1 (flat_map (fun i => if speaks s2 (m_nr (modat s2 i)) then [status_tx E s2 i] else []) (if bc then seq 0 (nmod s) else [pos]))) as A3.
  { destruct bc.
    - eapply for_ack with (fr := fun s i => if speaks s (m_nr (modat s i)) then [status_tx E s i] else []) in H3; eauto; rewrite ?T2; try lia.
      + intros a b' i O. destruct (only_tx_tab _ _ O) as (_ & S & M & _). unfold status_tx. rewrite M, S. reflexivity.
      + intros. apply status_ackn_inv; auto.
    - specialize (Hpos eq_refl). apply status_ackn_inv in H3; auto; rewrite ?T2; try lia. cbn [flat_map]. rewrite app_nil_r. exact H3. }
  destruct A3 as (-> & O3 & Er3 & n3 & L3 & S3). change (ERR_OK =? ERR_OK) with true in H1. cbv iota in H1.
  mbind H1 as c s4 H4. apply gets_inv in H4. destruct H4 as [-> ->]. mbind H1 as u5 s5 H5. apply ret_inv in H1. destruct H1 as [-> ->].
  apply report_if_inv in H. change (ERR_OK =? ERR_OK) with true in H. cbv iota in H. subst s'.
  apply drain_inv in H5; [|destruct (only_tx_tab _ _ O3) as (-> & _); rewrite T2; lia|eapply numbers_only; eauto].
  destruct H5 as (O5 & C5 & n5 & L5 & S5). exists (n0 ++ n3 ++ n5). split; [rewrite L5, L3, L0, <- !app_assoc; reflexivity|].
  split; auto. rewrite !sent_app, S0, S3, S5, Lo2. cbn [app]. f_equal.
  - destruct (listen_only s); auto. unfold of_awake. apply flat_map_in. intros i Hi. rewrite Sp2, M2, speaks_own; auto.
    + unfold status_tx. rewrite M2. reflexivity.
    + destruct bc; [apply in_seq in Hi; lia|]. destruct Hi as [<-|[]]. apply Hpos; auto.
    + destruct bc; [apply in_seq in Hi; lia|]. destruct Hi as [<-|[]]. specialize (Hpos eq_refl). lia.
  - unfold err_count. rewrite Er3, E0. fold (pending_errors (n_err s)). apply flat_map_ext. intro x. rewrite (error_tx_only s2 s3) by auto.
    unfold error_tx, error_nr. rewrite !Sp2, M2. reflexivity.
Qed.

(** *** version request *)
Lemma sys_tx_ok nr data s u s' : 1 <= nr <= 255 -> length data = 8%nat -> sys_tx nr data s = Ret (u, s') ->
  only_tx s s' /\ n_err s' = n_err s /\ exists new, n_log s' = n_log s ++ new /\ sent new = (if speaks s nr then [(sys_tx_id nr, 8, data)] else []).
Proof.
  intros [N1 N2] L H. apply sys_tx_inv in H; [|lia|lia]. destruct H as (O & Er & new & Ln & S & _). rewrite firstn_all2 in S by lia. eauto 8.
Qed.
Lemma minor_high x : u8 (N.shiftr (N.land 65280 (u16 x)) 8) = byte_n x 1.
Proof.
  rewrite N.shiftr_land. change (N.shiftr 65280 8) with 255. rewrite N.land_comm, land_255, N.shiftr_div_pow2. unfold u8, u16, byte_n.
  change (2 ^ 8) with 256. change (256 ^ 1) with 256. lia.
Qed.
Lemma version_frames_spec : version_frame1 E = [5; byte_n (BOOTMAJ E) 0; byte_n (BOOTMIN E) 1; byte_n (BOOTMIN E) 0; 0; byte_n (SWMAJ E) 0; byte_n (SWMIN E) 1; byte_n (SWMIN E) 0]
 /\ version_frame2 E = [6; byte_n (IDENT E) 3; byte_n (IDENT E) 2; byte_n (IDENT E) 1; byte_n (IDENT E) 0;
     byte_n (CHANGEIDX E) 2; byte_n (CHANGEIDX E) 1; byte_n (CHANGEIDX E) 0].
Proof.
  unfold version_frame1, version_frame2. rewrite !minor_high, !u8_byte.
  rewrite <- (u8_shift (IDENT E) 3), <- (u8_shift (IDENT E) 2), <- (u8_shift (IDENT E) 1), <- (u8_shift (CHANGEIDX E) 2), <- (u8_shift (CHANGEIDX E) 1).
  rewrite !u8_byte. split; reflexivity.
Qed.
Lemma version_ackn_inv pos s e s' : (pos < MAXM E)%nat -> (pos < length (tab_of s))%nat -> numbers_ok s -> version_ackn E pos s = Ret (e, s') ->
  ack_effect s s' e (if speaks s (m_nr (modat s pos)) then version_tx E s pos else []).
Proof.
  intros Hp Hl Hn H. unfold version_ackn in H. mbind H as mode s0 H0. apply gets_inv in H0. destruct H0 as [-> ->].
  unfold ack_effect. fold (listen_only s) in H. destruct (listen_only s) eqn:Lo.
  - apply ret_inv in H. destruct H as [-> ->]. pose proof (ack_nil s) as X. unfold ack_effect in X. rewrite Lo in X. exact X.
  - destruct (Nat.leb_spec (MAXM E) pos) as [X|X]; [lia|]. mbind H as m s0 H0. apply gets_inv in H0. destruct H0 as [-> ->].
    mbind H as u s1 H1. mbind H as u2 s2 H2. apply ret_inv in H. destruct H as [-> ->]. pose proof (Hn pos Hl) as N1.
    apply sys_tx_ok in H1; auto. destruct H1 as (O & Er & new & L & S). apply sys_tx_ok in H2; auto. destruct H2 as (O2 & Er2 & new2 & L2 & S2).
    split; auto. split; [eapply only_tx_trans; eauto|]. split; [congruence|]. exists (new ++ new2). split; [rewrite L2, L, app_assoc; auto|].
    destruct (only_tx_tab _ _ O) as (_ & Sp & _). rewrite Sp in S2. rewrite sent_app, S, S2. unfold version_tx. destruct version_frames_spec as [-> ->].
    destruct (speaks s (m_nr (modat s pos))); reflexivity.
Qed.
Lemma version_request pre mo id data now s s' l : reached E pre s -> sys_mo E mo = true -> numbers_ok s -> numbers_differ s ->
  addressed s id l -> byte_at data 0 = 5 ->
  step E (OpFrame mo id 8 data now) s = Ret (tt, s') ->
  only_tx s s' /\ n_err s' = n_err s /\ exists new, n_log s' = n_log s ++ new /\ sent new = (if listen_only s then [] else of_awake s (version_tx E s) l).
Proof.
  intros R Hm Hn D A Hb H. destruct (WF_reached E _ _ R) as (Wc & _ & _ & _).
  assert (length (tab_of s) = MAXM E /\ (nmod s <= MAXM E)%nat) as [Lt Nm].
  { split; [apply Wc|eapply nmod_le; eauto]. }
  apply step_sys in H; auto; [|eapply HwI_reached; eauto]. rewrite on_sys_eq in H. mbind H as e s1 H1.
  eapply sys_dispatch in H1; eauto; [|lia]. destruct H1 as (bc & pos & H1 & -> & Hpos & _ & Nz).
  unfold sys_cmd in H1. mbind H1 as n s0 H0. apply gets_inv in H0. destruct H0 as [-> ->]. change (b data 0) with (byte_at data 0) in H1. rewrite Hb in H1.
  change (cmd_of 5) with CVersion in H1. cbv iota in H1.
  assert (ack_effect s s1 e (flat_map (fun i => if speaks s (m_nr (modat s i)) then version_tx E s i else []) (if bc then seq 0 (nmod s) else [pos]))) as A3.
  { destruct bc.
    - eapply for_ack with (fr := fun s i => if speaks s (m_nr (modat s i)) then version_tx E s i else []) in H1; eauto; try lia.
      + intros a b' i O. destruct (only_tx_tab _ _ O) as (_ & S & M & _). unfold version_tx. rewrite M, S. reflexivity.
      + intros. apply version_ackn_inv; auto.
    - specialize (Hpos eq_refl). apply version_ackn_inv in H1; auto; try lia. cbn [flat_map]. rewrite app_nil_r. exact H1. }
  destruct A3 as (-> & O3 & Er3 & n3 & L3 & S3). apply report_if_inv in H. change (ERR_OK =? ERR_OK) with true in H. cbv iota in H. subst s'.
  split; auto. split; auto. exists n3. split; auto. rewrite S3. destruct (listen_only s); auto. unfold of_awake. apply flat_map_in. intros i Hi. rewrite speaks_own; auto.
  + destruct bc; [apply in_seq in Hi; lia|]. destruct Hi as [<-|[]]. apply Hpos; auto.
  + destruct bc; [apply in_seq in Hi; lia|]. destruct Hi as [<-|[]]. specialize (Hpos eq_refl). lia.
Qed.
(** decoding *)
Lemma be_2 x : x < 65536 -> be [byte_n x 1; byte_n x 0] = x.
Proof. intro H. unfold be, byte_n. cbn [fold_left]. change (256 ^ 1) with 256. change (256 ^ 0) with 1. rewrite N.div_1_r. lia. Qed.
Lemma be_3 x : x < 16777216 -> be [byte_n x 2; byte_n x 1; byte_n x 0] = x.
Proof. intro H. unfold be, byte_n. cbn [fold_left]. change (256 ^ 2) with 65536. change (256 ^ 1) with 256. change (256 ^ 0) with 1. rewrite N.div_1_r. lia. Qed.
Lemma be_4 x : x < 4294967296 -> be [byte_n x 3; byte_n x 2; byte_n x 1; byte_n x 0] = x.
Proof. intro H. unfold be, byte_n. cbn [fold_left]. change (256 ^ 3) with 16777216. change (256 ^ 2) with 65536. change (256 ^ 1) with 256. change (256 ^ 0) with 1. rewrite N.div_1_r. lia. Qed.

(** *** commands in general *)
Lemma sys_step pre mo id data now s s' : reached E pre s -> sys_mo E mo = true -> step E (OpFrame mo id 8 data now) s = Ret (tt, s') ->
  if id_nr id =? 1 then
    if (nmod s =? 0)%nat then exists r, s' = set_n_err s (n_err s') /\ syserr_send (n_err s) E_MODULE_NOT_FOUND LVL_INFO (m_nr (modat s 0)) = Some (n_err s', r)
    else exists e s1, sys_cmd E true 0 (id_nr id) data s = Ret (e, s1) /\ report_if e s1 = Ret (tt, s')
  else match entry_of_nr s (id_nr id) with
       | None => s' = s
       | Some pos => exists e s1, sys_cmd E false pos (id_nr id) data s = Ret (e, s1) /\ report_if e s1 = Ret (tt, s')
       end.
Proof.
  intros R Hm H. apply step_sys in H; auto; [|eapply HwI_reached; eauto]. rewrite on_sys_eq in H. mbind H as e s1 H1.
  unfold sys_msg_rx in H1. change (8 =? 8) with true in H1. cbn [negb] in H1. unfold NR_BROADCAST in H1. destruct (id_nr id =? 1).
  - mbind H1 as n s0 H0. apply gets_inv in H0. destruct H0 as [-> ->]. destruct (nmod s =? 0)%nat; [|eauto].
    apply ret_inv in H1. destruct H1 as [-> ->]. apply report_if_inv in H. cbn in H. destruct H as (H & r & Hr). eauto.
  - mbind H1 as tab s0 H0. apply gets_inv in H0. destruct H0 as [-> ->]. rewrite find_nr_of in H1. destruct (entry_of_nr s (id_nr id)); [eauto|].
    apply ret_inv in H1. destruct H1 as [-> ->]. apply report_if_inv in H. exact H.
Qed.

(** *** serial numbers *)
Lemma serial_of_spec src : serial_of src = byte_at src 5 mod 256 * 65536 + byte_at src 6 mod 256 * 256 + byte_at src 7 mod 256.
Proof.
  unfold serial_of, b. fold (byte_at src 5) (byte_at src 6) (byte_at src 7). generalize (byte_at src 5) (byte_at src 6) (byte_at src 7). intros x y z.
  rewrite !shiftl_mul. rewrite (N.land_comm 16711680), (N.land_comm 65280), (N.land_comm 255), land_255.
  change 16711680 with (255 * 2 ^ 16). change 65280 with (255 * 2 ^ 8). rewrite !land_shifted, !land_255.
  replace (u32 (x * 2 ^ 16) / 2 ^ 16 mod 256) with (x mod 256) by (unfold u32; change (2 ^ 16) with 65536; lia).
  replace (u32 (y * 2 ^ 8) / 2 ^ 8 mod 256) with (y mod 256) by (unfold u32; change (2 ^ 8) with 256; lia).
  rewrite <- N.lor_assoc, (lor_add (y mod 256)) by (change (2 ^ 8) with 256; lia).
  rewrite lor_add by (change (2 ^ 16) with 65536; change (2 ^ 8) with 256; lia). change (2 ^ 16) with 65536. change (2 ^ 8) with 256. lia.
Qed.
Lemma has_serial_spec src : (SERIAL E =? serial_of src) = has_serial E src.
Proof. unfold has_serial. rewrite serial_of_spec. reflexivity. Qed.
Lemma has_serial_big src : 16777216 <= SERIAL E -> has_serial E src = false.
Proof. intro H. unfold has_serial. apply N.eqb_neq. lia. Qed.
Lemma has_serial_announced src : SERIAL E < 16777216 -> byte_at src 5 = byte_n (SERIAL E) 2 -> byte_at src 6 = byte_n (SERIAL E) 1 -> byte_at src 7 = byte_n (SERIAL E) 0 ->
  has_serial E src = true.
Proof.
  intros H A B C. unfold has_serial. rewrite A, B, C. apply N.eqb_eq. pose proof (be_3 _ H) as X. unfold be in X. cbn [fold_left] in X.
  unfold byte_n in *. change (256 ^ 2) with 65536 in *. change (256 ^ 1) with 256 in *. change (256 ^ 0) with 1 in *. rewrite N.div_1_r in *. lia.
Qed.

(** *** C18, C20: commands that need the serial number *)
Lemma sys_cmd_no_serial pos nr src s e s' : needs_serial (byte_at src 0) = true -> has_serial E src = false ->
  sys_cmd E false pos nr src s = Ret (e, s') -> e = ERR_OK /\ s' = s.
Proof.
  intros Hc Hs H. unfold sys_cmd in H. mbind H as n s0 H0. apply gets_inv in H0. destruct H0 as [-> ->]. change (b src 0) with (byte_at src 0) in H.
  unfold needs_serial in Hc. apply orb_prop in Hc. destruct Hc as [Hc|Hc]; [apply orb_prop in Hc; destruct Hc as [Hc|Hc]; [apply orb_prop in Hc; destruct Hc as [Hc|Hc]|]|];
    apply N.eqb_eq in Hc; rewrite Hc in H.
  - change (cmd_of 32) with CNumber in H. cbv iota in H. rewrite has_serial_spec, Hs in H. apply ret_inv in H. exact H.
  - change (cmd_of 33) with CSilent in H. cbv iota in H. unfold sys_silent_awake in H. rewrite has_serial_spec, Hs in H. apply ret_inv in H. exact H.
  - change (cmd_of 34) with CAwake in H. cbv iota in H. unfold sys_silent_awake in H. rewrite has_serial_spec, Hs in H. apply ret_inv in H. exact H.
  - change (cmd_of 49) with CType in H. cbv iota in H. rewrite has_serial_spec, Hs in H. apply ret_inv in H. exact H.
Qed.
Lemma serial_refused pre mo id data now s s' : reached E pre s -> sys_mo E mo = true -> needs_serial (byte_at data 0) = true -> id_nr id <> 1 -> has_serial E data = false ->
  step E (OpFrame mo id 8 data now) s = Ret (tt, s') -> s' = s.
Proof.
  intros R Hm Hc Hb Hs H. eapply sys_step in H; eauto. destruct (N.eqb_spec (id_nr id) 1); [congruence|]. destruct (entry_of_nr s (id_nr id)); auto.
  destruct H as (e & s1 & H1 & H2). apply sys_cmd_no_serial in H1; auto. destruct H1 as [-> ->]. apply report_if_inv in H2. exact H2.
Qed.
Lemma broadcast_refused pre mo id data now s s' : reached E pre s -> sys_mo E mo = true -> needs_serial (byte_at data 0) = true -> id_nr id = 1 ->
  step E (OpFrame mo id 8 data now) s = Ret (tt, s') -> s' = set_n_err s (n_err s') /\ exists e r, syserr_send (n_err s) e LVL_INFO (m_nr (modat s 0)) = Some (n_err s', r).
Proof.
  intros R Hm Hc Hb H. eapply sys_step in H; eauto. rewrite Hb in H. change (1 =? 1) with true in H. cbv iota in H. destruct (nmod s =? 0)%nat.
  - destruct H as (r & H & Hr). eauto.
  - destruct H as (e & s1 & H1 & H2). assert (e = E_NO_BROADCAST /\ s1 = s) as [-> ->].
    { unfold sys_cmd in H1. mbind H1 as n s0 H0. apply gets_inv in H0. destruct H0 as [-> ->]. change (b data 0) with (byte_at data 0) in H1.
      unfold needs_serial in Hc. apply orb_prop in Hc. destruct Hc as [Hc|Hc]; [apply orb_prop in Hc; destruct Hc as [Hc|Hc]; [apply orb_prop in Hc; destruct Hc as [Hc|Hc]|]|];
      apply N.eqb_eq in Hc; rewrite Hc in H1; [change (cmd_of 32) with CNumber in H1|change (cmd_of 33) with CSilent in H1|change (cmd_of 34) with CAwake in H1|change (cmd_of 49) with CType in H1];
      cbv iota in H1; apply ret_inv in H1; auto. }
    apply report_if_inv in H2. cbn in H2. destruct H2 as [H2 [r Hr]]. eauto.
Qed.

(** a silent/awake message, direct *)
Lemma silent_message pre mo id data now s s' st : reached E pre s -> sys_mo E mo = true -> silent_cmd (byte_at data 0) = Some st -> id_nr id <> 1 ->
  step E (OpFrame mo id 8 data now) s = Ret (tt, s') ->
  match entry_of_nr s (id_nr id) with
  | Some pos => if has_serial E data && has_type s pos data then set_silent_awake E pos st s = Ret (ERR_OK, s') else s' = s
  | None => s' = s
  end.
Proof.
  intros R Hm Hc Hb H. eapply sys_step in H; eauto. destruct (N.eqb_spec (id_nr id) 1); [congruence|]. destruct (entry_of_nr s (id_nr id)) as [pos|] eqn:En; auto.
  destruct H as (e & s1 & H1 & H2). assert (sys_silent_awake E data (id_nr id) st s = Ret (e, s1)) as H3.
  { unfold sys_cmd in H1. mbind H1 as n0 s0 H0. apply gets_inv in H0. destruct H0 as [-> ->]. change (b data 0) with (byte_at data 0) in H1. unfold silent_cmd in Hc.
    destruct (N.eqb_spec (byte_at data 0) 33) as [Q|Q]; [rewrite Q in H1; injection Hc as <-; exact H1|]. destruct (N.eqb_spec (byte_at data 0) 34) as [Q2|Q2]; [rewrite Q2 in H1; injection Hc as <-; exact H1|discriminate]. }
  clear H1. unfold sys_silent_awake in H3. rewrite has_serial_spec in H3. destruct (has_serial E data); cbn [andb].
  - mbind H3 as tab s0 H0. apply gets_inv in H0. destruct H0 as [-> ->]. rewrite find_nr_of, En in H3. mbind H3 as m s0 H0. apply gets_inv in H0. destruct H0 as [-> ->].
    fold (has_type s pos data) in H3. destruct (has_type s pos data).
    + assert (e = ERR_OK) as ->.
      { pose proof (set_silent_awake_eq E pos st s e s1 (WF_reached _ _ _ R) H3) as X. apply entry_lt in En. destruct (WF_reached _ _ _ R) as ((Lt & _) & _).
        destruct (Nat.ltb_spec pos (MAXM E)); [|unfold tab_of in *; lia]. cbv zeta in X. unfold silent_cmd in Hc.
        destruct (byte_at data 0 =? 33); [injection Hc as <-; apply X|]. destruct (byte_at data 0 =? 34); [injection Hc as <-; apply X|discriminate]. }
      apply report_if_inv in H2. change (ERR_OK =? ERR_OK) with true in H2. cbv iota in H2. subst s'. exact H3.
    + apply ret_inv in H3. destruct H3 as [-> ->]. apply report_if_inv in H2. exact H2.
  - apply ret_inv in H3. destruct H3 as [-> ->]. apply report_if_inv in H2. exact H2.
Qed.
(** what the routine leaves alone *)
Lemma silent_awake_others pos st s e s' : WF E s -> set_silent_awake E pos st s = Ret (e, s') ->
  (forall p, p <> pos -> modat s' p = modat s p /\ silat s' p = silat s p) /\ nmod s' = nmod s /\ n_hw s' = n_hw s /\ n_sync s' = n_sync s /\ n_sys s' = n_sys s /\ n_err s' = n_err s /\
  (e = ERR_OK -> silat s' pos = st) /\ m_nr (modat s' pos) = m_nr (modat s pos) /\ m_type (modat s' pos) = m_type (modat s pos).
Proof.
  intros W H. pose proof W as ((Lt & Ft & Ls & _) & _). apply set_silent_awake_eq in H; auto. destruct (Nat.ltb_spec pos (MAXM E)) as [Hp|Hp].
  2: { destruct H as [-> ->]. repeat split; auto. discriminate. }
  cbv zeta in H.
  assert (forall p, silat (marked s pos st) p = if (p =? pos)%nat then st else silat s p) as Sl.
  { intro p. unfold marked, silat. cbn. destruct (Nat.eqb_spec p pos) as [->|N]; [apply nth_set_nth_same; lia|apply nth_set_nth_other; congruence]. }
  assert (pos < length (tab_of (marked s pos st)))%nat as Hl by (unfold tab_of in *; cbn; lia).
  destruct (st =? SILENT); [|destruct (st =? AWAKE)]; destruct H as [-> ->].
  - assert (forall p, modat (set_n_mem (upd_tx (fun x => set_x_reg x (N.ldiff (x_reg x) (objmask pos (m_ntx (modat s pos))))) (upd_mod pos silenced (marked s pos st)))
          (zeroed (firstn (m_nrx (modat s pos)) (m_rx (modat s pos))) (n_mem s))) p = if (p =? pos)%nat then silenced (modat s pos) else modat s p) as M.
    { intro p. exact (modat_upd_mod pos silenced (marked s pos st) p Hl). }
    split; [intros p N; rewrite M; destruct (Nat.eqb_spec p pos); [congruence|]; split; auto; pose proof (Sl p) as X; destruct (Nat.eqb_spec p pos); [congruence|exact X]|].
    do 5 (split; [reflexivity|]). split; [intros _; pose proof (Sl pos) as X; rewrite Nat.eqb_refl in X; exact X|]. rewrite M, Nat.eqb_refl. auto.
  - assert (forall p, modat (upd_tx (fun x => set_x_reg x (N.lor (x_reg x) (objmask pos (m_ntx (modat s pos))))) (upd_mod pos awakened (marked s pos st))) p
          = if (p =? pos)%nat then awakened (modat s pos) else modat s p) as M.
    { intro p. exact (modat_upd_mod pos awakened (marked s pos st) p Hl). }
    split; [intros p N; rewrite M; destruct (Nat.eqb_spec p pos); [congruence|]; split; auto; pose proof (Sl p) as X; destruct (Nat.eqb_spec p pos); [congruence|exact X]|].
    do 5 (split; [reflexivity|]). split; [intros _; pose proof (Sl pos) as X; rewrite Nat.eqb_refl in X; exact X|]. rewrite M, Nat.eqb_refl. auto.
  - split; [intros p N; split; [reflexivity|]; pose proof (Sl p) as X; destruct (Nat.eqb_spec p pos); [congruence|exact X]|]. repeat split; auto. discriminate.
Qed.

(** *** C22 *)
Lemma time_value x y z w : x < 256 -> y < 256 -> z < 256 -> w < 256 ->
  N.lor (N.lor (N.lor (N.land 4278190080 (u32 (N.shiftl x 24))) (N.land 16711680 (u32 (N.shiftl y 16)))) (N.land 65280 (u32 (N.shiftl z 8)))) (N.land 255 w) = be [x; y; z; w].
Proof.
  intros Hx Hy Hz Hw. rewrite !shiftl_mul. rewrite (N.land_comm 4278190080), (N.land_comm 16711680), (N.land_comm 65280), (N.land_comm 255), land_255.
  change 4278190080 with (255 * 2 ^ 24). change 16711680 with (255 * 2 ^ 16). change 65280 with (255 * 2 ^ 8). rewrite !land_shifted, !land_255.
  replace (u32 (x * 2 ^ 24) / 2 ^ 24 mod 256) with x by (unfold u32; change (2 ^ 24) with 16777216; lia).
  replace (u32 (y * 2 ^ 16) / 2 ^ 16 mod 256) with y by (unfold u32; change (2 ^ 16) with 65536; lia).
  replace (u32 (z * 2 ^ 8) / 2 ^ 8 mod 256) with z by (unfold u32; change (2 ^ 8) with 256; lia).
  rewrite <- !N.lor_assoc, (lor_add z) by (change (2 ^ 8) with 256; lia).
  rewrite (lor_add y) by (change (2 ^ 16) with 65536; change (2 ^ 8) with 256; lia).
  rewrite (lor_add x) by (change (2 ^ 24) with 16777216; change (2 ^ 16) with 65536; change (2 ^ 8) with 256; lia).
  unfold be. cbn [fold_left]. change (2 ^ 24) with 16777216. change (2 ^ 16) with 65536. change (2 ^ 8) with 256. lia.
Qed.
Lemma time_message pre mo id data now s s' : reached E pre s -> sys_mo E mo = true -> heard s id = true -> byte_at data 0 = 7 -> bytes_ok data ->
  step E (OpFrame mo id 8 data now) s = Ret (tt, s') ->
  s' = set_n_log s (n_log s ++ match z_cbt (n_sys s) with
    | Some c => [EvTime c (be [byte_at data 2; byte_at data 3; byte_at data 4; byte_at data 5])
                   (if byte_at data 6 <? 128 then Z.of_N (byte_at data 6) else (Z.of_N (byte_at data 6) - 256)%Z) (negb (byte_at data 7 =? 0))]
    | None => [] end).
Proof.
  intros R Hm Hh Hc Hb H. eapply sys_step in H; eauto.
  assert (exists bc pos e s1, sys_cmd E bc pos (id_nr id) data s = Ret (e, s1) /\ report_if e s1 = Ret (tt, s')) as (bc & pos & e & s1 & H1 & H2).
  { unfold heard in Hh. destruct (id_nr id =? 1).
    - destruct (nmod s =? 0)%nat; [discriminate|]. destruct H as (e & s1 & H); eauto 6.
    - destruct (entry_of_nr s (id_nr id)); [|discriminate]. destruct H as (e & s1 & H); eauto 6. }
  clear H Hh. unfold sys_cmd in H1. mbind H1 as n0 s0 H0. apply gets_inv in H0. destruct H0 as [-> ->]. change (b data 0) with (byte_at data 0) in H1. rewrite Hc in H1.
  change (cmd_of 7) with CTime in H1. cbv iota in H1. mbind H1 as z s0 H0. apply gets_inv in H0. destruct H0 as [-> ->]. mbind H1 as u s2 H3. apply ret_inv in H1. destruct H1 as [-> ->].
  apply report_if_inv in H2. change (ERR_OK =? ERR_OK) with true in H2. cbv iota in H2. subst s'.
  assert (forall i, byte_at data i < 256) as Hi.
  { intro i. unfold byte_at. destruct (Nat.lt_ge_cases i (length data)); [|rewrite nth_overflow by lia; lia]. unfold bytes_ok in Hb. rewrite Forall_forall in Hb. apply Hb, nth_In. lia. }
  unfold emit_cb in H3. destruct (z_cbt (n_sys s)) as [c|].
  - unfold emit in H3. apply modify_inv in H3. rewrite H3. unfold b. fold (byte_at data 2) (byte_at data 3) (byte_at data 4) (byte_at data 5) (byte_at data 6) (byte_at data 7).
    rewrite time_value by apply Hi. reflexivity.
  - apply ret_inv in H3. destruct H3 as [_ ->]. rewrite app_nil_r. destruct s; reflexivity.
Qed.

(** *** C19 *)
Lemma ask_inv s r s' : ask s = Ret (r, s') -> r = hd true (n_orc s) /\ s' = set_n_orc s (tl (n_orc s)).
Proof. unfold ask. destruct (n_orc s) eqn:O; intro H; injection H as <- <-; cbn; split; auto. rewrite <- O. destruct s; reflexivity. Qed.
Lemma set_node_mode_inv mode s e s' : set_node_mode mode s = Ret (e, s') ->
  s' = set_n_orc (upd_hw (fun h => if hd true (n_orc s) then set_h_drv (set_h_mode h mode) (if mode =? MODE_OPERATIONAL then 1 else 0) else set_h_mode h mode) s) (tl (n_orc s)) /\
  e = (if hd true (n_orc s) then ERR_OK else E_NOT_IMPLEMENTED).
Proof.
  unfold set_node_mode. intro H. mbind H as u s1 H1. apply modify_inv in H1. mbind H as ok s2 H2. apply ask_inv in H2. destruct H2 as [-> ->]. subst s1.
  change (n_orc (upd_hw (fun h => set_h_mode h mode) s)) with (n_orc s) in H. destruct (hd true (n_orc s)).
  - mbind H as u3 s3 H3. apply modify_inv in H3. apply ret_inv in H. destruct H as [-> ->]. subst s3. split; reflexivity.
  - apply ret_inv in H. destruct H as [-> ->]. split; reflexivity.
Qed.

Definition same_rates (s s' : node) : Prop := k_bdrtab (n_cfg s') = k_bdrtab (n_cfg s).
#[local] Instance pre_same_rates : Pre same_rates.
Proof. split; unfold same_rates; congruence. Qed.
Lemma rates_silent pos st : pres same_rates (set_silent_awake E pos st).
Proof.
  unfold set_silent_awake, sync_off, sync_on, tx_data_on, tx_data_off.
  repeat ((simple apply pres_call_rx; [typeclasses eauto| intros; reflexivity]) || pres_tac1); reflexivity.
Qed.
Lemma rates_define_obj mo id mask dlc rx sv sy : pres same_rates (define_obj E mo id mask dlc rx sv sy).
Proof. unfold define_obj, hw_define. pres_tac; reflexivity. Qed.
Lemma rates_shared a b c d : pres same_rates (define_shared E a b c d).
Proof.
  unfold define_shared, get_async_ctrl_obj, next_free.
  repeat (simple apply rates_define_obj || simple apply rates_silent || pres_tac1); reflexivity.
Qed.
Lemma rates_txc a b c : pres same_rates (tx_data_cnfg E a b c).
Proof. unfold tx_data_cnfg. pres_tac; reflexivity. Qed.
Lemma rates_nr_ids t n a : pres same_rates (change_nr_ids E t n a).
Proof. unfold change_nr_ids. repeat (simple apply rates_shared || simple apply rates_define_obj || simple apply rates_txc || pres_tac1); reflexivity. Qed.
Lemma rates_set_module pos d nr rxs txs : pres same_rates (set_module E pos d nr rxs txs).
Proof.
  unfold set_module, rx_slot, next_free, rx_data_cnfg.
  repeat (simple apply rates_shared || simple apply rates_define_obj || simple apply rates_txc || pres_tac1); reflexivity.
Qed.
Lemma rates_baud r : pres same_rates (set_baudrate r).
Proof.
  unfold set_baudrate. refine (pres_bind _ _ _ _ _); [pres_tac|intro tab]. generalize ERR_OK.
  induction tab as [|x tab IH]; intro e; cbn [set_baudrate_loop]; [pres_tac|].
  destruct (r =? x); [|apply IH]. unfold hw_set_baudrate. repeat (simple apply IH || pres_tac1); reflexivity.
Qed.
Lemma rates_step o : pres same_rates (step E o).
Proof.
  apply (kernel_step E same_rates); try reflexivity. destruct o; cbn [kernel]; auto; try (intros; reflexivity).
  - intros _. unfold sys_kernel. destruct (cmd_of (b data 0)); auto.
    + split; [unfold set_node_mode; intro; pres_tac; reflexivity|apply rates_baud].
    + intro. unfold change_nr. repeat (simple apply rates_nr_ids || simple apply rates_silent || pres_tac1); reflexivity.
    + intro. unfold sys_silent_awake. repeat (simple apply rates_silent || pres_tac1); reflexivity.
    + intro. unfold sys_silent_awake. repeat (simple apply rates_silent || pres_tac1); reflexivity.
    + intro. unfold change_type. repeat (simple apply rates_txc || pres_tac1); reflexivity.
  - unfold add_module. repeat (simple apply rates_set_module || pres_tac1); reflexivity.
  - unfold set_silent_awake_type_nr. repeat (simple apply rates_silent || pres_tac1); reflexivity.
  - apply rates_nr_ids.
  - unfold change_type_add. pres_tac; reflexivity.
  - unfold set_node_mode. pres_tac; reflexivity.
  - apply rates_baud.
  - unfold set_active_critical, sync_off, sync_on, tx_data_on, tx_data_off.
    repeat ((simple apply pres_call_rx; [typeclasses eauto| intros; reflexivity]) || pres_tac1); reflexivity.
Qed.
Lemma bdrtab_reached ops s : reached E ops s -> k_bdrtab (n_cfg s) = RATES.
Proof.
  intros (s0 & (mem & st & orc & rate & B) & R).
  assert (k_bdrtab (n_cfg s) = k_bdrtab (n_cfg s0)) as -> by exact (pres_run E same_rates rates_step ops s0 tt s R).
  assert (Pre (fun s s' => k_bdrtab (n_cfg s) = RATES -> k_bdrtab (n_cfg s') = RATES)) as HP2 by (split; auto).
  enough (pres (fun s s' => k_bdrtab (n_cfg s) = RATES -> k_bdrtab (n_cfg s') = RATES) (can_init E rate)) as X by (eapply X; [exact B|reflexivity]).
  unfold can_init, config_init, msg_objs_init, sys_init, sync_init, define_obj, hw_define. pres_tac; auto.
Qed.
Definition rated (s : node) (rate : N) : node :=
  upd_hw (fun h => set_h_xrate h (Some rate)) (set_n_log (upd_hw (fun h => set_h_rate h (Some rate)) (upd_cfg (fun k => set_k_bdr k rate) s)) (n_log s ++ [EvRate rate])).
Lemma bdr_loop_out l rate err s : ~ In rate l -> set_baudrate_loop l rate err s = Ret (err, s).
Proof.
  induction l as [|r l IH]; intro H; cbn [set_baudrate_loop]; [reflexivity|]. destruct (N.eqb_spec rate r) as [->|]; [exfalso; apply H; left; reflexivity|].
  apply IH. intro X. apply H. right. exact X.
Qed.
Lemma bdr_loop_in l rate err s : NoDup l -> In rate l -> In rate RATES -> h_mode (n_hw s) = MODE_STOPPED -> set_baudrate_loop l rate err s = Ret (ERR_OK, rated s rate).
Proof.
  intros ND Hi Hr Hm. induction ND as [|r l Hn ND IH]; [destruct Hi|]. cbn [set_baudrate_loop]. destruct (N.eqb_spec rate r) as [<-|Nr].
  - unfold bind at 1, modify at 1. unfold bind at 1. unfold hw_set_baudrate at 1. unfold bind at 1, gets at 1.
    change (h_mode (n_hw (upd_cfg (fun k => set_k_bdr k rate) s))) with (h_mode (n_hw s)). rewrite Hm. change ((MODE_STOPPED =? MODE_INIT) || (MODE_STOPPED =? MODE_STOPPED)) with true. cbv iota.
    assert ((rate =? 125) || (rate =? 250) || (rate =? 500) || (rate =? 1000) = true) as ->. { unfold RATES in Hr. cbn in Hr. lia. }
    unfold bind at 1, modify at 1. unfold bind at 1, emit at 1, modify at 1. unfold ret at 1. change (ERR_OK =? ERR_OK) with true. cbv iota. unfold bind at 1, modify at 1.
    rewrite bdr_loop_out by exact Hn. reflexivity.
  - destruct Hi as [->|Hi]; [congruence|]. apply IH. exact Hi.
Qed.
Lemma set_baudrate_eq rate s : k_bdrtab (n_cfg s) = RATES -> h_mode (n_hw s) = MODE_STOPPED ->
  set_baudrate rate s = Ret (ERR_OK, if existsb (N.eqb rate) RATES then rated s rate else s).
Proof.
  intros Ht Hm. unfold set_baudrate, bind, gets. rewrite Ht. destruct (existsb (N.eqb rate) RATES) eqn:X.
  - apply existsb_exists in X. destruct X as (y & Hy & Xe). apply N.eqb_eq in Xe. subst y. apply bdr_loop_in; auto.
    unfold RATES. repeat constructor; cbn; intro Q; repeat (destruct Q as [Q|Q]; try discriminate Q); exact Q.
  - apply bdr_loop_out. intro Y. assert (existsb (N.eqb rate) RATES = true) as Z by (apply existsb_exists; exists rate; split; [exact Y|apply N.eqb_refl]). congruence.
Qed.

Lemma baud_direct pre mo id data now s s' : reached E pre s -> sys_mo E mo = true -> byte_at data 0 = 2 -> id_nr id <> 1 ->
  step E (OpFrame mo id 8 data now) s = Ret (tt, s') ->
  s' = set_n_err s (n_err s') /\ (forall p, (p < length (tab_of s))%nat -> m_nr (modat s p) = id_nr id ->
     exists r, syserr_send (n_err s) E_NO_DIRECT LVL_INFO (m_nr (modat s 0)) = Some (n_err s', r)).
Proof.
  intros R Hm Hc Hb H. eapply sys_step in H; eauto. destruct (N.eqb_spec (id_nr id) 1); [congruence|]. destruct (entry_of_nr s (id_nr id)) as [p|] eqn:En.
  - destruct H as (e & s1 & H1 & H2). unfold sys_cmd in H1. mbind H1 as n0 s0 H0. apply gets_inv in H0. destruct H0 as [-> ->]. change (b data 0) with (byte_at data 0) in H1. rewrite Hc in H1.
    change (cmd_of 2) with CBaud in H1. cbv iota in H1. apply ret_inv in H1. destruct H1 as [-> ->]. apply report_if_inv in H2. cbn in H2. destruct H2 as [H2 [r Hr]]. eauto.
  - subst s'. split; [destruct s; reflexivity|]. intros p Hp Hq. exfalso. eapply entry_none; eauto.
Qed.
Lemma known_eq r : known_rate r = existsb (N.eqb r) RATES.
Proof. unfold known_rate, RATES. cbn [existsb]. destruct (r =? 125), (r =? 250), (r =? 500), (r =? 1000); reflexivity. Qed.
Lemma baud_broadcast pre mo id data now s s' : reached E pre s -> sys_mo E mo = true -> byte_at data 0 = 2 -> id_nr id = 1 -> nmod s <> 0%nat -> byte_at data 1 < 256 -> byte_at data 2 < 256 ->
  step E (OpFrame mo id 8 data now) s = Ret (tt, s') ->
  if ok1 s then
    k_bdr (n_cfg s') = (if known_rate (frame_rate data) then frame_rate data else k_bdr (n_cfg s)) /\
    n_log s' = n_log s ++ (if known_rate (frame_rate data) then [EvRate (frame_rate data)] else []) /\
    h_mode (n_hw s') = h_mode (n_hw s) /\ n_tx s' = n_tx s /\ n_sync s' = n_sync s /\ n_sys s' = n_sys s /\ tab_of s' = tab_of s /\ k_silent (n_cfg s') = k_silent (n_cfg s) /\
    (if ok2 s then n_err s' = n_err s else exists r, syserr_send (n_err s) E_NOT_IMPLEMENTED LVL_INFO (m_nr (modat s 0)) = Some (n_err s', r))
  else
    k_bdr (n_cfg s') = k_bdr (n_cfg s) /\ n_log s' = n_log s /\ h_mode (n_hw s') = MODE_STOPPED /\
    exists r, syserr_send (n_err s) E_NOT_IMPLEMENTED LVL_INFO (m_nr (modat s 0)) = Some (n_err s', r).
Proof.
  rewrite known_eq. intros R Hm Hc Hb Hn B1 B2 H. eapply sys_step in H; eauto. rewrite Hb in H. change (1 =? 1) with true in H. cbv iota in H.
  destruct (Nat.eqb_spec (nmod s) 0); [congruence|]. destruct H as (e & s1 & H1 & H2).
  unfold sys_cmd in H1. mbind H1 as n0 s0 H0. apply gets_inv in H0. destruct H0 as [-> ->]. change (b data 0) with (byte_at data 0) in H1. rewrite Hc in H1.
  change (cmd_of 2) with CBaud in H1. cbv iota in H1. mbind H1 as mode s0 H0. apply gets_inv in H0. destruct H0 as [-> ->].
  replace (u16 (N.shiftl (b data 1) 8 + b data 2)) with (frame_rate data) in H1.
  2: { unfold frame_rate, be, b. fold (byte_at data 1) (byte_at data 2). cbn [fold_left]. rewrite shiftl_mul. change (2 ^ 8) with 256. unfold u16. rewrite N.mod_small; lia. }
  unfold andthen at 1 in H1. mbind H1 as e2 s2 H3. apply set_node_mode_inv in H3. destruct H3 as [S2 ->]. fold (ok1 s) in *. destruct (ok1 s) eqn:O1.
  - change (ERR_OK =? ERR_OK) with true in H1. cbv iota in H1. unfold andthen in H1. mbind H1 as e3 s3 H3.
    rewrite set_baudrate_eq in H3; [|subst s2; exact (bdrtab_reached _ _ R)|subst s2; reflexivity]. set (inr := existsb (N.eqb (frame_rate data)) RATES) in *. clearbody inr. injection H3 as <- <-. change (ERR_OK =? ERR_OK) with true in H1. cbv iota in H1.
    apply set_node_mode_inv in H1. destruct H1 as [S1 He].
    assert (n_orc (if inr then rated s2 (frame_rate data) else s2) = tl (n_orc s)) as Or by (subst s2; destruct (inr); reflexivity).
    rewrite Or in S1, He. fold (ok2 s) in S1, He.
    assert (n_err s1 = n_err s /\ m_nr (modat s1 0) = m_nr (modat s 0)) as [Er1 Nr1] by (subst s1 s2; destruct (inr); split; reflexivity).
    assert (exists x, s' = set_n_err s1 x) as [x Hx]. { apply report_if_inv in H2. destruct (e =? ERR_OK); [exists (n_err s1); subst s'; destruct s1; reflexivity|destruct H2 as [-> _]; eauto]. }
    do 8 (split; [subst s' s1 s2; destruct (inr), (ok2 s); cbn; rewrite ?app_nil_r; reflexivity|]).
    apply report_if_inv in H2. destruct (ok2 s); subst e.
    + change (ERR_OK =? ERR_OK) with true in H2. cbv iota in H2. rewrite H2. exact Er1.
    + cbn in H2. destruct H2 as [_ [r Hr]]. exists r. unfold nr_main in Hr. rewrite Er1, Nr1 in Hr. exact Hr.
  - apply ret_inv in H1. destruct H1 as [-> ->]. apply report_if_inv in H2. cbn in H2. destruct H2 as [H2 [r Hr]]. subst s2. rewrite H2. repeat split; auto. exists r. exact Hr.
Qed.

(** *** C26: the error sent with a process request *)
Lemma reports_trans nr a b c : reports nr a b -> reports nr b c -> reports nr a c.
Proof. induction 1; intro H2; auto. econstructor; eauto. Qed.
Definition cyc_event (x : txst) (e : event) : Prop := exists pos obj dlc data ok, e = EvTx (get2 (x_id x) pos obj) dlc data ok.
Definition cyc_rel (s s' : node) : Prop :=
  only_tx s s' /\ reports (m_nr (modat s 0)) (n_err s) (n_err s') /\ exists new, n_log s' = n_log s ++ new /\ Forall (cyc_event (n_tx s)) new.
Lemma cyc_refl s : cyc_rel s s.
Proof. split; [apply only_tx_refl|]. split; [constructor|]. exists []. rewrite app_nil_r. auto. Qed.
Lemma cyc_trans a b c : cyc_rel a b -> cyc_rel b c -> cyc_rel a c.
Proof.
  intros (O1 & R1 & n1 & L1 & F1) (O2 & R2 & n2 & L2 & F2). split; [eapply only_tx_trans; eauto|]. destruct (only_tx_tab _ _ O1) as (_ & _ & M & _). rewrite M in R2.
  split; [eapply reports_trans; eauto|]. exists (n1 ++ n2). rewrite L2, L1, app_assoc. split; auto. apply Forall_app. split; auto. destruct O1 as (_ & Ht & _). rewrite <- Ht. exact F2.
Qed.
Lemma report_cyc e s s' : report_if e s = Ret (tt, s') -> cyc_rel s s'.
Proof.
  intro H. apply report_if_inv in H. destruct (N.eqb_spec e ERR_OK) as [_|Ne].
  - subst. apply cyc_refl.
  - destruct H as [H [r Hr]]. split; [rewrite H; repeat split|]. split; [econstructor; eauto; constructor|]. exists []. rewrite app_nil_r. split; [rewrite H; reflexivity|constructor].
Qed.
Lemma send_one_cyc cur can s r s' : send_one E cur can s = Ret (r, s') -> cyc_rel s s'.
Proof.
  intro H. unfold send_one in H. mbind H as u s0 H0. apply guard_inv in H0. destruct H0 as [_ ->]. mbind H as dlc s0 H0. apply gets_inv in H0. destruct H0 as [-> ->].
  mbind H as q s1 H1. assert (s1 = s) as ->.
  { unfold tx_data_main in H1. mbind H1 as o s2 H2. apply gets_inv in H2. destruct H2 as [-> ->]. mbind H1 as mem s2 H2. apply gets_inv in H2. destruct H2 as [-> ->].
    destruct (nth_error _ _); [|discriminate]. destruct (t_conv_s _); [|discriminate]. mbind H1 as u2 s2 H2. apply guard_inv in H2. destruct H2 as [_ ->]. apply ret_inv in H1. tauto. }
  mbind H as u2 s2 H2. apply ret_inv in H. destruct H as [_ ->]. destruct u2. destruct (snd q =? ERR_OK); [|eapply report_cyc; eauto].
  mbind H2 as idl s3 H3. apply gets_inv in H3. destruct H3 as [-> ->]. mbind H2 as e s3 H3. apply send_msg_inv in H3. destruct H3 as (O & Er & _ & ok & L & _).
  eapply cyc_trans; [|eapply report_cyc; eauto]. split; auto. split; [rewrite Er; constructor|]. eexists. split; [exact L|]. constructor; [|constructor]. cbn [fst snd]. do 5 eexists. reflexivity.
Qed.
Lemma send_loop_cyc fuel : forall send cur can s u s', send_loop E fuel send cur can s = Ret (u, s') -> cyc_rel s s'.
Proof.
  induction fuel as [|f IH]; intros send cur can s u s' H; cbn [send_loop] in H; [discriminate|]. destruct (send =? 0); [apply ret_inv in H; destruct H as [_ ->]; apply cyc_refl|].
  mbind H as x s0 H0. apply gets_inv in H0. destruct H0 as [-> ->]. destruct (skip _ send cur _) as [send1 cur1]. destruct (N.odd send1); [|eauto].
  mbind H as can' s1 H1. apply send_one_cyc in H1. apply IH in H. eapply cyc_trans; eauto.
Qed.
Definition mute (s s' : node) : Prop :=
  n_cfg s' = n_cfg s /\ n_tx s' = n_tx s /\ n_err s' = n_err s /\ exists new, n_log s' = n_log s ++ new /\ sent new = [].
#[local] Instance pre_mute : Pre mute.
Proof.
  split.
  - intro s. repeat split. exists []. rewrite app_nil_r. auto.
  - intros a b c (A1 & A2 & A3 & n1 & L1 & S1) (B1 & B2 & B3 & n2 & L2 & S2). do 3 (split; [congruence|]). exists (n1 ++ n2). rewrite L2, L1, sent_app, S1, S2, app_assoc. auto.
Qed.
Ltac mute_leaf := repeat split; first [exists []; cbn; rewrite app_nil_r; split; reflexivity | eexists; split; reflexivity].
Lemma mute_request : pres mute process_request_rx.
Proof. unfold process_request_rx. pres_tac; mute_leaf. Qed.
Lemma mute_check_modules n first now : pres mute (check_modules n first now).
Proof. revert first. induction n as [|n IH]; intro first; cbn [check_modules]; [pres_tac|]. unfold check_module. repeat (simple apply IH || pres_tac1); mute_leaf. Qed.
Lemma mute_check now : pres mute (check_image now).
Proof. unfold check_image, clear_image. repeat (simple apply mute_check_modules || pres_tac1); mute_leaf. Qed.
Lemma mute_main dlc now : pres mute (rx_process_main dlc now).
Proof. unfold rx_process_main. pres_tac; mute_leaf. Qed.
Lemma error_tx_cfg s s' e : n_cfg s' = n_cfg s -> error_tx s' e = error_tx s e.
Proof. intro C. unfold error_tx, error_nr, speaks, entry_of_nr, awake, silat, modat, tab_of. rewrite C. reflexivity. Qed.
Lemma send_process_cyc s u s' : send_process_data E s = Ret (u, s') -> cyc_rel s s'.
Proof.
  unfold send_process_data. generalize SEND_FUEL. intros fuel H. mbind H as reg s0 H0. apply gets_inv in H0. destruct H0 as [-> ->]. eapply send_loop_cyc, H.
Qed.
Lemma es_get_head st st' e r : es_count st <> 0%nat -> es_get st = Some (st', (e, r)) -> e = ERR_OK /\ exists x, r = Some x /\ exists l, pending_errors st = x :: l.
Proof.
  intros Hc Hg. assert (e = ERR_OK /\ exists x, r = Some x) as [-> [x ->]].
  { destruct st as [size q|sl]; cbn in *.
    - unfold eq_count in Hc. unfold eq_get_full in Hg. destruct (q_ready q); [|congruence]. cbn [negb] in Hg. destruct (Nat.eqb_spec (q_count q) 0); [congruence|].
      destruct (nth_error _ _); [|discriminate]. injection Hg as _ <- <-. eauto.
    - injection Hg as _ <- <-. eauto. }
  split; auto. exists x. split; auto. unfold pending_errors. destruct (es_count st) as [|n] eqn:C; [congruence|]. cbn [pending_n]. rewrite C, Hg. change (S n =? 0)%nat with false. change (ERR_OK =? ERR_OK) with true. cbv iota. eexists. reflexivity.
Qed.
Lemma sent_cyc x l : Forall (cyc_event x) l -> forall f, In f (sent l) -> exists pos obj, fst (fst f) = get2 (x_id x) pos obj.
Proof.
  induction 1 as [|e l (pos & obj & dlc & data & ok & ->) Hl IH]; intros f Hf; [destruct Hf|]. cbn in Hf. destruct Hf as [<-|Hf]; [exists pos, obj; reflexivity|apply IH, Hf].
Qed.
Lemma process_errors pre dlc now s s' : env_ok E -> reached E pre s -> numbers_ok s -> step E (request dlc now) s = Ret (tt, s') ->
  exists new1 new2 st, n_log s' = n_log s ++ new1 ++ new2 /\ reports (m_nr (modat s 0)) (n_err s) st /\
    (forall f, In f (sent new1) -> exists pos obj, fst (fst f) = get2 (x_id (n_tx s)) pos obj) /\
    sent new2 = match pending_errors st with [] => [] | e :: _ => error_tx s e end /\
    n_err s' = (if (es_count st =? 0)%nat then st else match es_get st with Some (st', _) => st' | None => st end).
Proof.
  intros HE R Hn H. assert (0 < length (tab_of s))%nat as Hl by (pose proof (WF_reached E _ _ R) as [[Wl _] _]; unfold tab_of; rewrite Wl; apply HE).
  eapply step_request in H; [|reflexivity|eapply HwI_reached, R]. unfold on_process in H.
  mbind H as u1 s1 H1. apply mute_request in H1. mbind H as u2 s2 H2. apply mute_check in H2. pose proof (pre_trans _ _ _ H1 H2) as (C2 & T2 & E2 & n2 & L2 & S2). clear H1 H2 s1.
  mbind H as u3 s3 H3. apply send_process_cyc in H3.
  mbind H as u4 s4 H4. apply mute_main in H4. destruct H4 as (C4 & T4 & E4 & n4 & L4 & S4). mbind H as c s0 H0. apply gets_inv in H0. destruct H0 as [-> ->].
  destruct H3 as (O3 & R3 & n3 & L3 & F3). assert (n_cfg s4 = n_cfg s) as C by (destruct O3 as (O3 & _); congruence).
  assert (modat s2 0 = modat s 0) as M by (unfold modat, tab_of; rewrite C2; reflexivity). rewrite M, E2 in R3.
  assert (forall f, In f (sent (n2 ++ n3 ++ n4)) -> exists pos obj, fst (fst f) = get2 (x_id (n_tx s)) pos obj) as F.
  { intros f. rewrite !sent_app, S2, S4, app_nil_r. cbn [app]. rewrite <- T2. apply sent_cyc, F3. }
  assert (n_log s4 = n_log s ++ (n2 ++ n3 ++ n4)) as L by (rewrite L4, L3, L2, <- !app_assoc; reflexivity).
  unfold err_count in H. rewrite E4 in H. destruct (Nat.eqb_spec (es_count (n_err s3)) 0) as [Z|Z].
  - rewrite Z in H. change (0 <? 0)%nat with false in H. cbv iota in H. apply ret_inv in H. destruct H as [_ ->].
    exists (n2 ++ n3 ++ n4), [], (n_err s3). rewrite app_nil_r. unfold pending_errors. rewrite Z. auto.
  - assert ((0 <? es_count (n_err s3))%nat = true) as Z1 by (apply Nat.ltb_lt; clear -Z; lia). rewrite Z1 in H. apply send_one_error_inv in H.
    + destruct H as (O5 & st & e & r & G & Er & n5 & L5 & S5). rewrite E4 in G. destruct (es_get_head _ _ _ _ Z G) as (-> & x & -> & l & P).
      exists (n2 ++ n3 ++ n4), n5, (n_err s3). rewrite L5, L, <- !app_assoc, P, G. split; [reflexivity|]. split; [exact R3|]. split; [exact F|]. split.
      * rewrite S5. change (ERR_OK =? ERR_OK) with true. cbv iota. cbn [flat_map]. rewrite app_nil_r. apply error_tx_cfg, C.
      * apply Nat.eqb_neq in Z. rewrite Z. exact Er.
    + unfold tab_of. rewrite C. exact Hl.
    + intros i Hi. unfold modat, tab_of in *. rewrite C in *. apply Hn, Hi.
Qed.

(** *** decoding *)
Lemma byte_n_small x : x < 256 -> be [byte_n x 0] = x.
Proof. intro H. unfold be, byte_n. cbn [fold_left]. change (256 ^ 0) with 1. lia. Qed.
Lemma version_decode s pos :
  BOOTMAJ E < 256 -> BOOTMIN E < 65536 -> SWMAJ E < 256 -> SWMIN E < 65536 -> IDENT E < 4294967296 -> CHANGEIDX E < 16777216 ->
  exists b1 b2 b3 s1 s2 s3 i1 i2 i3 i4 c1 c2 c3,
    version_tx E s pos = [(sys_tx_id (m_nr (modat s pos)), 8, [5; b1; b2; b3; 0; s1; s2; s3]); (sys_tx_id (m_nr (modat s pos)), 8, [6; i1; i2; i3; i4; c1; c2; c3])] /\
    be [b1] = BOOTMAJ E /\ be [b2; b3] = BOOTMIN E /\ be [s1] = SWMAJ E /\ be [s2; s3] = SWMIN E /\
    be [i1; i2; i3; i4] = IDENT E /\ be [c1; c2; c3] = CHANGEIDX E.
Proof.
  intros. do 13 eexists. split; [reflexivity|]. rewrite !byte_n_small, !be_2, be_3, be_4 by assumption. repeat split.
Qed.
Lemma announced_serial s pos data : SERIAL E < 16777216 -> skipn 5 (firstn 8 data) = skipn 5 (snd (status_tx E s pos)) -> has_serial E data = true.
Proof.
  intros Hs Hd. assert (length (type4 (m_type (modat s pos))) = 4%nat) as L by reflexivity.
  assert (forall t, length t = 4%nat -> skipn 5 (snd (sys_tx_id (m_nr (modat s pos)), 8, [4] ++ t ++ [byte_n (SERIAL E) 2; byte_n (SERIAL E) 1; byte_n (SERIAL E) 0])) = [byte_n (SERIAL E) 2; byte_n (SERIAL E) 1; byte_n (SERIAL E) 0]) as X.
  { intros t Ht. destruct t as [|a [|b0 [|c [|d [|]]]]]; try discriminate. reflexivity. }
  unfold status_tx in Hd. rewrite X in Hd by exact L. clear X L.
  destruct data as [|a0 [|a1 [|a2 [|a3 [|a4 [|a5 [|a6 [|a7 l]]]]]]]]; try discriminate Hd. cbn [firstn skipn] in Hd. injection Hd as -> -> ->.
  apply has_serial_announced; auto.
Qed.
Lemma large_serial pre s mo id data now s' : 16777216 <= SERIAL E -> reached E pre s -> sys_mo E mo = true -> needs_serial (byte_at data 0) = true -> id_nr id <> 1 ->
  step E (OpFrame mo id 8 data now) s = Ret (tt, s') -> s' = s.
Proof. intros Hs R M N I. apply (serial_refused pre mo id data now); auto. apply has_serial_big, Hs. Qed.
Lemma silent_awake_others_reached pre s pos st e s' : reached E pre s -> set_silent_awake E pos st s = Ret (e, s') ->
  (forall p, p <> pos -> modat s' p = modat s p /\ silat s' p = silat s p) /\ nmod s' = nmod s /\ n_hw s' = n_hw s /\ n_sync s' = n_sync s /\ n_sys s' = n_sys s /\ n_err s' = n_err s /\
  (e = ERR_OK -> silat s' pos = st) /\ m_nr (modat s' pos) = m_nr (modat s pos) /\ m_type (modat s' pos) = m_type (modat s pos).
Proof. intros R H. eapply silent_awake_others; eauto. eapply WF_reached, R. Qed.
Lemma error_decode e : e_code e < 4294967296 -> e_info e < 256 -> e_prio e < 256 -> e_group e < 256 ->
  exists c1 c2 c3 c4, error_frame e = [3; c1; c2; c3; c4; e_info e; e_prio e; e_group e] /\ be [c1; c2; c3; c4] = e_code e.
Proof.
  intros H1 H2 H3 H4. do 4 eexists. split.
  - unfold error_frame. unfold u8 at 5 6 7. rewrite !N.mod_small by assumption. reflexivity.
  - rewrite <- (be_4 (e_code e)) at 5 by exact H1. unfold byte_n, u8. rewrite !shiftr_div. change (2 ^ 24) with 16777216. change (2 ^ 16) with 65536. change (2 ^ 8) with 256.
    change (256 ^ 3) with 16777216. change (256 ^ 2) with 65536. change (256 ^ 1) with 256. change (256 ^ 0) with 1. rewrite N.div_1_r. reflexivity.
Qed.

End SysP.
