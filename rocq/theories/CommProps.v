(** C101: module numbers given to several nodes on one bus. *)
From Verif Require Import Words WordsFacts Bits ErrModel NodeModel NodeLib NodeInv NodeSpec NodeHw NodeSysP NodeTxP NodeNr NodeMo NodeCfg NodeUseSpec NodeUse NodeEx CommSpec.

Lemma assign_nr a : 2 <= a_old a <= 128 -> id_nr (assign_id a) = a_old a.
Proof. intro H. unfold assign_id, id_nr, sys_rx_id. lia. Qed.
Lemma assign_serial E a : a_serial a < 16777216 -> has_serial E (assign_data a) = (SERIAL E =? a_serial a).
Proof.
  intro H. unfold has_serial. change (byte_at (assign_data a) 5) with (a_serial a / 65536). change (byte_at (assign_data a) 6) with (a_serial a / 256 mod 256). change (byte_at (assign_data a) 7) with (a_serial a mod 256).
  replace ((a_serial a / 65536) mod 256 * 65536 + ((a_serial a / 256) mod 256) mod 256 * 256 + (a_serial a mod 256) mod 256) with (a_serial a) by lia. reflexivity.
Qed.
(** the addressed module of the node with the serial number *)
Lemma assign_step E pre mo a s s' q : reached E pre s -> sys_mo E mo = true -> 2 <= a_old a <= 128 -> has_serial E (assign_data a) = true -> entry_of_nr s (a_old a) = Some q -> accepts_nr s q (a_new a) ->
  step E (OpFrame mo (assign_id a) 8 (assign_data a) (a_now a)) s = Ret (tt, s') ->
  m_nr (modat s' q) = a_new a /\ forall p, p <> q -> m_nr (modat s' p) = m_nr (modat s p).
Proof.
  intros R Hm Ho Hs En Ac H. eapply sys_step in H; eauto. rewrite (assign_nr _ Ho) in H. replace (a_old a =? 1) with false in H by (symmetry; apply N.eqb_neq; lia). rewrite En in H. destruct H as (e & s1 & H1 & H2).
  assert (forall p, m_nr (modat s' p) = m_nr (modat s1 p)) as Hr.
  { intro p. assert (pres (fun a c : node => n_cfg c = n_cfg a) (report_if e)) as P by (apply pres_report_if; [split; congruence|intros; reflexivity]). apply P in H2. unfold modat, tab_of. rewrite H2. reflexivity. }
  unfold sys_cmd in H1. mbind H1 as n s0 H0. apply gets_inv in H0. destruct H0 as [-> ->]. change (cmd_of (b (assign_data a) 0)) with CNumber in H1. cbv iota in H1. rewrite has_serial_spec, Hs in H1.
  change (b (assign_data a) 2) with (a_new a) in H1.
  pose proof (entry_lt _ _ _ En) as [Lp Qp]. pose proof En as En'. rewrite <- Qp in En'. apply entry_named in En'.
  assert (forall q0, m_nr (modat s1 q0) = if (q0 =? q)%nat then a_new a else m_nr (modat s q0)) as X.
  { unfold change_nr in H1. mbind H1 as v s0 H0. apply gets_inv in H0. destruct H0 as [-> ->]. mbind H1 as m s0 H0. apply gets_inv in H0. destruct H0 as [-> ->].
    unfold accepts_nr in Ac. destruct (k_voter (n_cfg s)) as [v|]; [|eapply nr_ids_numbers; eauto].
    assert (forall st, (change_nr_ids E (m_type (modat s q)) (a_new a) (m_nr (modat s q)) >>> set_silent_awake E q st) s = Ret (e, s1) -> forall q0, m_nr (modat s1 q0) = if (q0 =? q)%nat then a_new a else m_nr (modat s q0)) as Y.
    { intros st Hx. unfold andthen in Hx. mbind Hx as e1 s2 H3. pose proof (nr_ids_numbers _ _ _ _ _ _ _ _ En' H3) as Q. destruct (e1 =? ERR_OK); [|apply ret_inv in Hx; destruct Hx as [_ ->]; exact Q].
      intro q0. rewrite <- Q. apply (NodeNum.same_silent E m_nr nr_base) in Hx. apply (NodeNum.same_f_at m_nr _ _ q0 Hx). }
    destruct Ac as [Z|Z]; rewrite Z in H1; [change (0 =? 0) with true in H1|change (3 =? 0) with false in H1; change (3 =? 3) with true in H1]; cbv iota in H1; eapply Y; exact H1. }
  split; [rewrite Hr, X, Nat.eqb_refl; reflexivity|]. intros p Np. rewrite Hr, X. apply Nat.eqb_neq in Np. rewrite Np. reflexivity.
Qed.
Definition works (c : station) : Prop := env_ok (st_env c) /\ serial c < 16777216 /\ exists pre, reached (st_env c) pre (st_node c).
Lemma receives_works id data now c c' : receives id data now c c' -> works c -> works c'.
Proof.
  intros (Q & H) (W1 & W2 & pre & W3). unfold works, serial in *. rewrite Q. split; [exact W1|]. split; [exact W2|]. destruct H as [(mo & _ & _ & H)|(_ & ->)]; [|eauto]. exists (pre ++ [OpFrame mo id 8 data now]). eapply reached_app; eauto.
Qed.
Lemma receives_other a c c' : valid a -> works c -> receives (assign_id a) (assign_data a) (a_now a) c c' -> a_serial a <> serial c -> c' = c.
Proof.
  intros (V1 & V2) (_ & _ & pre & R) (Q & H) N. destruct c as [E s], c' as [E' s']. unfold serial in N. cbn [st_env st_node] in *. subst E'. f_equal. destruct H as [(mo & Hm & _ & H)|(_ & H)]; [|exact H].
  eapply serial_refused; [exact R|exact Hm| | | |exact H]; [reflexivity|rewrite assign_nr by exact V1; lia|]. rewrite assign_serial by exact V2. apply N.eqb_neq. congruence.
Qed.
Lemma receives_meant a c c' q : works c -> receives (assign_id a) (assign_data a) (a_now a) c c' -> meant c a q ->
  exists mo, sys_mo (st_env c) mo = true /\ st_env c' = st_env c /\ step (st_env c) (OpFrame mo (assign_id a) 8 (assign_data a) (a_now a)) (st_node c) = Ret (tt, st_node c') /\
    number c' q = a_new a /\ (forall p, p <> q -> number c' p = number c p).
Proof.
  intros (_ & W & pre & R) (Q & H) (M1 & M2 & M3 & (M4 & _) & M5). destruct H as [(mo & Hm & _ & H)|(H & _)].
  - exists mo. split; [exact Hm|]. split; [exact Q|]. split; [exact H|]. unfold number. eapply assign_step; [exact R|exact Hm|exact M2| |exact M3|exact M5|exact H]. rewrite assign_serial by (rewrite M1; exact W). apply N.eqb_eq. symmetry. exact M1.
  - exfalso. apply (H MO_SYS1); [reflexivity|exact M4].
Qed.
Lemma forall2_nth {A B} (P : A -> B -> Prop) l l' : Forall2 P l l' -> forall i x, nth_error l i = Some x -> exists y, nth_error l' i = Some y /\ P x y.
Proof. induction 1 as [|x y l l' H F IH]; intros [|i] z Hz; cbn in *; try discriminate; [injection Hz as <-; eauto|eauto]. Qed.
Lemma forall2_length {A B} (P : A -> B -> Prop) l l' : Forall2 P l l' -> length l = length l'.
Proof. induction 1; cbn; auto. Qed.
Lemma assigned_other plan ns ns' i c : assigned plan ns ns' -> Forall valid plan -> works c -> nth_error ns i = Some c -> (forall a, In a plan -> a_serial a <> serial c) -> nth_error ns' i = Some c.
Proof.
  induction 1 as [|a plan ns ns1 ns2 H H' IH]; intros V W Hi N; [exact Hi|]. inversion_clear V as [|? ? V1 V2]. destruct (forall2_nth _ _ _ H _ _ Hi) as (c1 & H1 & H2).
  assert (c1 = c) as -> by (eapply receives_other; eauto; apply N; left; reflexivity). apply IH; auto. intros b Hb. apply N. right. exact Hb.
Qed.

(** C101: one change-number message gives the module it is meant for its number, leaves the numbers of the other modules of that node,
    and leaves all other nodes of the bus as they were, whatever their numbers are. *)
Theorem C101_one_partial : forall a ns ns' i c q,
  distinct ns -> valid a -> assigned [a] ns ns' -> nth_error ns i = Some c -> meant c a q ->
  (exists c', nth_error ns' i = Some c' /\ number c' q = a_new a /\ forall p, p <> q -> number c' p = number c p) /\
  (forall j, j <> i -> nth_error ns' j = nth_error ns j).
Proof.
  intros a ns ns' i c q (D1 & D2) V H Hi M. pose proof H as H'. inversion_clear H' as [|? ? ? ns1 ? F A]. assert (ns1 = ns') as -> by (inversion A; reflexivity). clear A. rewrite Forall_forall in D2. split.
  - destruct (forall2_nth _ _ _ F _ _ Hi) as (c' & H1 & H2). exists c'. split; [exact H1|]. destruct (receives_meant _ _ _ q (D2 c (nth_error_In _ _ Hi)) H2 M) as (mo & _ & _ & _ & X & Y). auto.
  - intros j Nj. destruct (nth_error ns j) as [d|] eqn:Hj.
    + eapply assigned_other; [exact H|auto|apply D2; eapply nth_error_In; eauto|exact Hj|]. intros b [<-|[]] Q. destruct M as (M & _). apply Nj. eapply (NoDup_nth_error (map serial ns)); [exact D1| |].
      * rewrite map_length. apply nth_error_Some. congruence.
      * rewrite !nth_error_map, Hi, Hj. cbn. congruence.
    + apply nth_error_None. apply nth_error_None in Hj. rewrite <- (forall2_length _ _ _ F). exact Hj.
Qed.
Print Assumptions C101_one_partial.

(** C101: a list of such messages, one per node and in any order, gives every module it names its number, even if all of them had the
    same number at the beginning or some get numbers others still have; nodes that are not named stay as they were. *)
Theorem C101_all_partial : forall plan ns ns' i c,
  distinct ns -> NoDup (map a_serial plan) -> Forall valid plan -> assigned plan ns ns' -> nth_error ns i = Some c ->
  ((forall a, In a plan -> a_serial a <> serial c) -> nth_error ns' i = Some c) /\
  (forall a q, In a plan -> meant c a q ->
     exists c', nth_error ns' i = Some c' /\ st_env c' = st_env c /\ number c' q = a_new a /\ (forall p, p <> q -> number c' p = number c p) /\
       (a_new a <> a_old a -> 1 <= a_new a <= 128 -> complete (st_env c) (st_node c) q ->
        reported (st_node c) (st_node c') \/ hears (st_env c') (st_node c') (a_new a))).
Proof.
  intros plan ns ns' i c (_ & D) N V H Hi. assert (works c) as W by (rewrite Forall_forall in D; apply D; eapply nth_error_In; eauto). clear D.
  split; [intro; eapply assigned_other; eauto|]. intros a q. revert N V W Hi. induction H as [|b plan ns ns1 ns2 H H' IH]; intros N V W Hi Ha M; [destruct Ha|].
  cbn [map] in N. inversion_clear N as [|? ? N1 N2]. inversion_clear V as [|? ? V1 V2]. destruct (forall2_nth _ _ _ H _ _ Hi) as (c1 & H1 & H2). pose proof M as (M1 & M2 & M3 & _). destruct Ha as [->|Ha].
  - destruct (receives_meant _ _ _ q W H2 M) as (mo & Hm & Qe & Hs & X & Y). exists c1. pose proof (receives_works _ _ _ _ _ H2 W) as W1. split.
    + eapply assigned_other; eauto. intros b Hb Qb. apply N1. apply in_map_iff. exists b. split; [|exact Hb]. unfold serial in *. rewrite Qe in Qb. congruence.
    + split; [exact Qe|]. split; [exact X|]. split; [exact Y|]. intros Nn Hn C. destruct W as (HE & _ & pre & R). pose proof (entry_lt _ _ _ M3) as [_ Qo]. unfold number in X.
      eapply (number_effect _ HE) in Hs; [|exact R| | | |exact C]; [|rewrite X, Qo; exact Nn|change (byte_at (assign_data a) 2) with (a_new a); lia|change (byte_at (assign_data a) 2) with (a_new a); lia].
      destruct Hs as [Hs|(_ & C' & _ & _ & Hs)]; [left; exact Hs|right]. rewrite Qe. apply Hs; [lia|right]. exists q. split; [apply C'|exact X].
  - assert (c1 = c) as ->. { eapply receives_other; eauto. intro Q. apply N1. apply in_map_iff. exists a. split; [congruence|exact Ha]. }
    apply IH; auto.
Qed.
Print Assumptions C101_all_partial.

(** such messages are always handled to the end *)
Lemma step_sys_is E mo id dlc data now s : HwI E s -> sys_mo E mo = true -> step E (OpFrame mo id dlc data now) s = on_sys E id dlc data s.
Proof.
  intros HI Hm. destruct (sys_mo_reserved E _ Hm) as [Hr Hp]. cbn [step]. unfold frame_rx. unfold bind at 1. unfold gets. unfold bind at 1.
  assert ((if is_sync_mo mo s then on_data E mo id dlc data else ret tt) s = Ret (tt, s)) as ->.
  { destruct (is_sync_mo mo s); [|reflexivity]. unfold on_data, bind, gets. rewrite NodeSync.find_slot_owner. pose proof (NodeFirst.owner_reserved E s mo HI Hr) as O. unfold owner in O. rewrite O. reflexivity. }
  unfold bind at 1. rewrite Hp. cbn [ret]. fold (sys_mo E mo). rewrite Hm. reflexivity.
Qed.
Lemma other_returns E pre mo a s : reached E pre s -> sys_mo E mo = true -> valid a -> SERIAL E <> a_serial a -> step E (OpFrame mo (assign_id a) 8 (assign_data a) (a_now a)) s = Ret (tt, s).
Proof.
  intros R Hm (V1 & V2) N. rewrite step_sys_is by (auto; eapply HwI_reached; eauto). rewrite on_sys_eq, (assign_nr _ V1). unfold sys_msg_rx. change (8 =? 8) with true. cbn [negb]. replace (a_old a =? NR_BROADCAST) with false by (symmetry; apply N.eqb_neq; unfold NR_BROADCAST; lia).
  unfold bind at 1. unfold bind at 1. unfold gets at 1. rewrite find_nr_of. destruct (entry_of_nr s (a_old a)); [|reflexivity].
  unfold sys_cmd. unfold bind at 1. unfold gets at 1. change (cmd_of (b (assign_data a) 0)) with CNumber. cbv iota. rewrite has_serial_spec, assign_serial by exact V2. apply N.eqb_neq in N. rewrite N. reflexivity.
Qed.
Lemma meant_returns c mo a q : works c -> valid a -> meant c a q -> able c a q -> sys_mo (st_env c) mo = true ->
  exists s', step (st_env c) (OpFrame mo (assign_id a) 8 (assign_data a) (a_now a)) (st_node c) = Ret (tt, s').
Proof.
  intros (HE & W & pre & R) (V1 & V2) (M1 & _ & M3 & _) (A1 & A2 & A3 & A4 & A5 & A6 & A7) Hm. destruct c as [E s]. unfold serial in *. cbn [st_env st_node] in *.
  rewrite step_sys_is by (auto; eapply HwI_reached; eauto). rewrite on_sys_eq, (assign_nr _ V1). unfold sys_msg_rx. change (8 =? 8) with true. cbn [negb]. replace (a_old a =? NR_BROADCAST) with false by (symmetry; apply N.eqb_neq; unfold NR_BROADCAST; lia).
  unfold bind at 1. unfold bind at 1. unfold gets at 1. rewrite find_nr_of, M3.
  unfold sys_cmd. unfold bind at 1. unfold gets at 1. change (cmd_of (b (assign_data a) 0)) with CNumber. cbv iota. rewrite has_serial_spec, assign_serial by exact V2. rewrite M1, N.eqb_refl. change (b (assign_data a) 2) with (a_new a).
  unfold change_nr. unfold bind at 1. unfold gets at 1. unfold bind at 1. unfold gets at 1. rewrite A6.
  pose proof (entry_lt _ _ _ M3) as [Lp Qp]. pose proof M3 as En. rewrite <- Qp in En. apply entry_named in En.
  destruct (nr_possible E HE (m_type (modat s q)) (a_new a) (m_nr (modat s q)) s q) as (s' & H); auto; [eapply WF_reached; eauto|eapply CtlI_reached; eauto|apply N.eqb_eq; exact A2|].
  rewrite H. exists s'. reflexivity.
Qed.
Lemma hears_dec E s id : (exists mo, sys_mo E mo = true /\ passes s mo id) \/ (forall mo, sys_mo E mo = true -> ~ passes s mo id).
Proof.
  assert (forall mo, passes s mo id \/ ~ passes s mo id) as D. { intro mo. unfold passes. destruct (nth mo (h_filt (n_hw s)) None) as [[f m]|]; [|auto]. destruct (N.eq_dec (N.land (N.lxor id f) m) 0); auto. }
  destruct (D MO_SYS1) as [P|P]; [left; exists MO_SYS1; split; [reflexivity|exact P]|]. destruct (SYS2 E) eqn:S2.
  - destruct (D MO_SYS2) as [P2|P2]; [left; exists MO_SYS2; split; [unfold sys_mo; rewrite S2; apply orb_true_r|exact P2]|]. right. intros mo H Q. unfold sys_mo in H. rewrite S2 in H. apply orb_prop in H. destruct H as [H|H]; apply Nat.eqb_eq in H; subst mo; auto.
  - right. intros mo H Q. unfold sys_mo in H. rewrite S2 in H. apply orb_prop in H. destruct H as [H|H]; [apply Nat.eqb_eq in H; subst mo; auto|discriminate].
Qed.
Lemma station_returns a c : valid a -> works c -> (a_serial a = serial c -> exists q, meant c a q /\ able c a q) -> exists c', receives (assign_id a) (assign_data a) (a_now a) c c'.
Proof.
  intros V W Ha. destruct c as [E s]. destruct (hears_dec E s (assign_id a)) as [(mo & Hm & P)|Q].
  - assert (exists s', step E (OpFrame mo (assign_id a) 8 (assign_data a) (a_now a)) s = Ret (tt, s')) as (s' & H).
    { destruct (N.eq_dec (a_serial a) (serial (Station E s))) as [Q|Q]; [destruct (Ha Q) as (q & M & A); apply (meant_returns (Station E s) mo a q); auto|]. exists s. destruct W as (_ & _ & pre & R). eapply other_returns; eauto. }
    exists (Station E s'). split; [reflexivity|]. left. exists mo. auto.
  - exists (Station E s). split; [reflexivity|]. right. auto.
Qed.
(** C101: and all messages of such a list are handled to the end if every node that is named can change its number. *)
Theorem C101_possible_partial : forall plan ns,
  distinct ns -> NoDup (map a_serial plan) -> Forall valid plan ->
  (forall a c, In a plan -> In c ns -> a_serial a = serial c -> exists q, meant c a q /\ able c a q) ->
  exists ns', assigned plan ns ns'.
Proof.
  intros plan ns (_ & D). change (Forall works ns) in D. revert ns D. induction plan as [|a plan IH]; intros ns W N V H; [exists ns; constructor|].
  cbn [map] in N. inversion_clear N as [|? ? N1 N2]. inversion_clear V as [|? ? V1 V2].
  assert (exists ns1, Forall2 (receives (assign_id a) (assign_data a) (a_now a)) ns ns1 /\ Forall works ns1 /\ (forall b c, In b plan -> In c ns1 -> a_serial b = serial c -> exists q, meant c b q /\ able c b q)) as (ns1 & F & W1 & H1).
  { clear IH. induction ns as [|c ns IHn]; [exists []; repeat split; auto; intros b c _ []|]. inversion_clear W as [|? ? Wc Wn]. destruct IHn as (ns1 & F & W1 & H1); auto; [intros; eapply H; eauto; right; assumption|].
    destruct (station_returns a c V1 Wc) as (c' & Hc); [intro; eapply H; eauto; left; reflexivity|]. exists (c' :: ns1). split; [constructor; auto|]. split; [constructor; auto; eapply receives_works; eauto|].
    intros b d Hb [<-|Hd] Q; [|eauto]. destruct (N.eq_dec (a_serial a) (serial c)) as [Qc|Qc].
    - exfalso. apply N1. apply in_map_iff. exists b. split; [|exact Hb]. destruct Hc as (Qe & _). unfold serial in *. rewrite Qe in Q. congruence.
    - rewrite (receives_other _ _ _ V1 Wc Hc Qc) in *. eapply H; eauto; [right; exact Hb|left; reflexivity]. }
  destruct (IH ns1 W1 N2 V2 H1) as (ns' & Hn). exists ns'. econstructor; eauto.
Qed.
Print Assumptions C101_possible_partial.

(** C101, finding: a node whose serial number needs more than 24 bits cannot be given a number: no sequence of frames changes any. *)
Theorem C101_large_refuted : forall E frames pre s s',
  16777216 <= SERIAL E -> reached E pre s -> Forall is_frame frames -> run E frames s = Ret (tt, s') -> forall q, m_nr (modat s' q) = m_nr (modat s q).
Proof.
  intros E frames. induction frames as [|o frames IH]; intros pre s s' L R F H q.
  - apply ret_inv in H. destruct H as [_ ->]. reflexivity.
  - inversion_clear F as [|? ? F1 F2]. cbn [run] in H. mbind H as u s1 H1. destruct u. transitivity (m_nr (modat s1 q)).
    + eapply IH; eauto. eapply reached_app; eauto.
    + destruct o; try contradiction. destruct (N.eq_dec (m_nr (modat s1 q)) (m_nr (modat s q))) as [|Nq]; [assumption|exfalso]. eapply number_authorised in Nq; eauto. destruct Nq as (_ & _ & _ & _ & _ & Hs & _).
      unfold has_serial in Hs. apply N.eqb_eq in Hs. lia.
Qed.
Print Assumptions C101_large_refuted.

(** three nodes that differ in their serial numbers only; each has modules with the numbers 10 and 20 *)
Definition with_serial (n : N) : env := Env 8 32 50 true true true true n 1 2 3 4 12345678 77 [170;170;170;170;170;170;170;170].
Definition started (n : N) : node := match can_init (with_serial n) 250 (static_node (with_serial n) mem0 slot_empty []) with Ret (_, s) => s | _ => static0 end.
Definition ready (n : N) : node := match run (with_serial n) add2 (started n) with Ret (_, s) => s | _ => static0 end.
Definition node_of (n : N) : station := Station (with_serial n) (ready n).
Definition told (n : N) (a : assignment) (s : node) : node := match step (with_serial n) (OpFrame MO_SYS1 (assign_id a) 8 (assign_data a) (a_now a)) s with Ret (_, s') => s' | _ => static0 end.
Definition to_6 : assignment := Assign 6 10 11 7.
Definition to_5 : assignment := Assign 5 10 12 8.
Definition the_bus : list station := map node_of [5; 6; 70000].
Lemma node_works n : In n [5; 6; 70000; 16777221] -> env_ok (with_serial n) /\ reached (with_serial n) add2 (ready n).
Proof.
  intro H. cbn [In] in H. destruct H as [<-|[<-|[<-|[<-|[]]]]]; (split; [unfold env_ok; cbn; lia|]).
  all: match goal with |- reached (with_serial ?n) _ _ => exists (started n); split; [exists mem0, slot_empty, [], 250; vm_compute; reflexivity|vm_compute; reflexivity] end.
Qed.
Lemma told_ok n a s : match step (with_serial n) (OpFrame MO_SYS1 (assign_id a) 8 (assign_data a) (a_now a)) s with Ret _ => true | _ => false end = true ->
  step (with_serial n) (OpFrame MO_SYS1 (assign_id a) 8 (assign_data a) (a_now a)) s = Ret (tt, told n a s).
Proof. unfold told. destruct (step _ _ s) as [[[] s']| |]; congruence. Qed.
Ltac taken := unfold receives, node_of; cbn [st_env st_node]; split; [reflexivity|]; left; exists MO_SYS1; split; [reflexivity|]; split; [vm_compute; reflexivity|]; vm_compute; reflexivity.
Ltac tells := unfold receives, node_of; cbn [st_env st_node]; split; [reflexivity|]; left; exists MO_SYS1; split; [reflexivity|]; split; [vm_compute; reflexivity|]; apply told_ok; vm_compute; reflexivity.
Lemma ignored_5 : receives (assign_id to_6) (assign_data to_6) (a_now to_6) (node_of 5) (node_of 5). Proof. taken. Qed.
Lemma taken_6 : receives (assign_id to_6) (assign_data to_6) (a_now to_6) (node_of 6) (Station (with_serial 6) (told 6 to_6 (ready 6))). Proof. tells. Qed.
Lemma ignored_7 : receives (assign_id to_6) (assign_data to_6) (a_now to_6) (node_of 70000) (node_of 70000). Proof. taken. Qed.
Lemma taken_5 : receives (assign_id to_5) (assign_data to_5) (a_now to_5) (node_of 5) (Station (with_serial 5) (told 5 to_5 (ready 5))). Proof. tells. Qed.
Lemma ignored_8 : receives (assign_id to_5) (assign_data to_5) (a_now to_5) (node_of 70000) (node_of 70000). Proof. taken. Qed.
Lemma ignored_6 : receives (assign_id to_5) (assign_data to_5) (a_now to_5) (Station (with_serial 6) (told 6 to_6 (ready 6))) (Station (with_serial 6) (told 6 to_6 (ready 6))).
Proof. taken. Qed.
(** the two assignments on that bus; both nodes have number 10 before *)
Example C101_case : distinct the_bus /\ Forall valid [to_6; to_5] /\ NoDup (map a_serial [to_6; to_5]) /\
  assigned [to_6; to_5] the_bus [Station (with_serial 5) (told 5 to_5 (ready 5)); Station (with_serial 6) (told 6 to_6 (ready 6)); node_of 70000] /\
  meant (node_of 6) to_6 0 /\ meant (node_of 5) to_5 0 /\ able (node_of 6) to_6 0 /\ able (node_of 5) to_5 0 /\ number (node_of 5) 0 = 10 /\ number (node_of 6) 0 = 10.
Proof.
  split.
  { split; [cbn; repeat constructor; cbn; intuition discriminate|]. unfold the_bus. cbn [map].
    repeat (apply Forall_cons; [unfold serial, node_of; cbn [st_env st_node]; match goal with |- env_ok (with_serial ?n) /\ _ => assert (In n [5; 6; 70000; 16777221]) as I by (cbn; auto); destruct (node_works n I) as [X Y]; split; [exact X|]; split; [reflexivity|eauto] end|]). apply Forall_nil. }
  split; [repeat constructor; vm_compute; congruence|]. split; [cbn; repeat constructor; cbn; intuition discriminate|]. split.
  { eapply assigned_next; [|eapply assigned_next; [|apply assigned_none]].
    - repeat apply Forall2_cons; [exact ignored_5|exact taken_6|exact ignored_7|apply Forall2_nil].
    - repeat apply Forall2_cons; [exact taken_5|exact ignored_6|exact ignored_8|apply Forall2_nil]. }
  split; [|split; [|split; [|split]]].
  1,2: split; [reflexivity|]; split; [cbn; lia|]; split; [vm_compute; reflexivity|]; split; [|vm_compute; exact I]; split; [vm_compute; reflexivity|]; split; intros _; vm_compute; reflexivity.
  1,2: split; [split; [vm_compute; lia|]; split; [|intros _; split; vm_compute; reflexivity]; intros i Hi; assert (i = 0)%nat as -> by (vm_compute in Hi; lia); split; [vm_compute; auto|]; split; vm_compute; reflexivity|];
    split; [vm_compute; reflexivity|]; split; [vm_compute; lia|]; split; [vm_compute; reflexivity|]; split; [intros i Hi; assert (i = 0)%nat as -> by (vm_compute in Hi; lia); vm_compute; discriminate|]; split; [vm_compute; reflexivity|cbn; lia].
  split; vm_compute; reflexivity.
Qed.
(** a node with the serial number 2^24 + 5 gets the message for 5 *)
Example C101_large_case : 16777216 <= SERIAL (with_serial 16777221) /\ reached (with_serial 16777221) add2 (ready 16777221) /\
  run (with_serial 16777221) [OpFrame MO_SYS1 (assign_id to_5) 8 (assign_data to_5) 8] (ready 16777221) = Ret (tt, ready 16777221).
Proof.
  split; [cbn; lia|]. split; [apply node_works; cbn; auto|]. vm_compute. reflexivity.
Qed.
