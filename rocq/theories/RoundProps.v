(** C111: values of the master reach the application in a process cycle, and come back in the next one. *)
From Verif Require Import Words WordsFacts ErrModel NodeModel NodeLib NodeSpec NodeInv NodeHw NodeImage NodeSysP NodeTx NodeNum NodeTxProps NodeEx NodeMo NodeCfg NodeContSpec NodeCont NodeContProps NodeSyncProps ConvModel ConvSpec ConvProps ValueSpec ValueProps NodeBusSpec EchoSpec Echo AimSpec Aim FeedSpec Feed FeedProps RoundSpec.

Lemma on_wire_eq k vs : good k vs -> on_wire k vs = wire k vs.
Proof.
  destruct k; cbn [on_wire wire]; intro G; try reflexivity. destruct G as (_ & v & -> & _). cbn [flat_map in_memory]. rewrite !app_nil_r. unfold host, be_enc. rewrite rev_involutive. reflexivity.
Qed.
(** In a cycle as in C109, let the master send the values [vs] for an object: whenever the image is then declared valid, the application finds the
    values in the memory of the object, in the byte order of its platform, and nothing behind them has changed. *)
Theorem C111_arrives : forall E pre d1 t1 fs d2 t2 s0 s1 s2 s3 new p obj a le k vs old post,
  env_ok E -> CHK E = true -> SYS2 E = true -> plainly E pre s0 -> all_complete E s0 -> existsb is_request pre = true -> d1 <= 1 ->
  step E (request d1 t1) s0 = Ret (tt, s1) -> Forall proper fs -> N.of_nat (length fs) <= 65536 -> meets_all E fs s1 s2 ->
  step E (request d2 t2) s2 = Ret (tt, s3) -> added s2 s3 new ->
  In (p, true) (verdicts new) -> (obj < listening s0 p)%nat -> own_memory s1 p obj a ->
  good k vs -> r_conv_s (rxat (modat s0 p) obj) = Some (library_rx le k) -> r_dlc_s (rxat (modat s0 p) obj) = N.of_nat (width k vs) ->
  nth_error (n_mem s1) a = Some (old ++ post) -> length old = width k vs ->
  (forall f, In f fs -> f_nr f = m_nr (modat s0 p) -> f_obj f = obj -> f_dlc f = N.of_nat (width k vs) -> firstn (width k vs) (f_data f) = on_wire k vs) ->
  nth_error (n_mem s3) a = Some (in_memory le k vs ++ post).
Proof.
  intros E pre d1 t1 fs d2 t2 s0 s1 s2 s3 new p obj a le k vs old post HE Ck Y2 P C X D1 S1 Fp Lf M S2 A Hv Lo Om G Hc Hd Ho Lold W.
  destruct (C109_data E pre d1 t1 fs d2 t2 s0 s1 s2 s3 new p obj a HE Y2 P C X D1 S1 Fp Lf M S2 A Hv Lo Om) as (f & g & app & Hf & N1 & N2 & N3 & Hg & Ha & Hm).
  specialize (N3 Ck). rewrite Hc in Hg. injection Hg as <-. rewrite Ho in Ha. injection Ha as <-. rewrite Hd in N3. rewrite Hm, N3. rewrite <- (firstn_skipn (width k vs) (f_data f)), (W f Hf N1 N2 N3), on_wire_eq by exact G.
  rewrite library_rx_memory by auto. reflexivity.
Qed.
Print Assumptions C111_arrives.
(** When the application copies what it received into a transmit object of the same kind, the next process request makes the node send the
    master's values back. *)
Theorem C111_returns : forall E pre d1 t1 fs d2 t2 s0 s1 s2 s3 new p obj a le k vs old post o m s4 d3 t3 s5,
  env_ok E -> CHK E = true -> SYS2 E = true -> plainly E pre s0 -> all_complete E s0 -> existsb is_request pre = true -> d1 <= 1 ->
  step E (request d1 t1) s0 = Ret (tt, s1) -> Forall proper fs -> N.of_nat (length fs) <= 65536 -> meets_all E fs s1 s2 ->
  step E (request d2 t2) s2 = Ret (tt, s3) -> added s2 s3 new ->
  In (p, true) (verdicts new) -> (obj < listening s0 p)%nat -> own_memory s1 p obj a ->
  good k vs -> r_conv_s (rxat (modat s0 p) obj) = Some (library_rx le k) -> r_dlc_s (rxat (modat s0 p) obj) = N.of_nat (width k vs) ->
  nth_error (n_mem s1) a = Some (old ++ post) -> length old = width k vs ->
  (forall f, In f fs -> f_nr f = m_nr (modat s0 p) -> f_obj f = obj -> f_dlc f = N.of_nat (width k vs) -> firstn (width k vs) (f_data f) = on_wire k vs) ->
  nth_error (n_mem s3) a = Some m -> step E (OpWrite (t_addr (txat (modat s4 p) o)) m) s3 = Ret (tt, s4) ->
  (t_addr (txat (modat s4 p) o) < length (n_mem s3))%nat -> length (JUNK E) = 8%nat -> convertible s4 -> In (p, o) (enabled s4) ->
  t_conv_s (txat (modat s4 p) o) = Some (library_tx le k) -> t_dlc (txat (modat s4 p) o) = N.of_nat (width k vs) ->
  step E (request d3 t3) s4 = Ret (tt, s5) ->
  exists new', added s4 s5 new' /\ In (data_tx_id (m_nr (modat s0 p)) o, N.of_nat (width k vs), on_wire k vs) (sent new').
Proof.
  intros E pre d1 t1 fs d2 t2 s0 s1 s2 s3 new p obj a le k vs old post o m s4 d3 t3 s5 HE Ck Y2 P C X D1 S1 Fp Lf M S2 A Hv Lo Om G Hc Hd Ho Lold W Hmm S4 Lb J Cv En Tc Td S5.
  pose proof (C111_arrives E pre d1 t1 fs d2 t2 s0 s1 s2 s3 new p obj a le k vs old post HE Ck Y2 P C X D1 S1 Fp Lf M S2 A Hv Lo Om G Hc Hd Ho Lold W) as Hm. rewrite Hm in Hmm. injection Hmm as <-.
  assert (sys_mo E MO_PROCESS = false) as Hs by (unfold sys_mo; destruct (SYS2 E); reflexivity).
  assert (forall d t, plain E (request d t)) as Pl by (intros; apply frame_plain, Hs). assert (forall d t s s', step E (request d t) s = Ret (tt, s') -> n_cfg s' = n_cfg s) as Cf by (intros d t s s' H; exact (frame_cfg E MO_PROCESS ID_PROCESS d [] t Hs _ _ _ H)).
  destruct P as [F R]. pose proof (Cf _ _ _ _ S1) as Q1.
  assert (plainly E (pre ++ [request d1 t1]) s1) as P1 by (split; [apply Forall_app; split; [exact F|constructor; [apply Pl|constructor]]|eapply reached_step; eauto]).
  assert (all_complete E s1) as C1. { intros q U. pose proof (Pl d1 t1). eapply (complete_kept E HE); eauto; [|apply C]; unfold modat, tab_of in *; rewrite Q1 in U; exact U. }
  destruct (all_meets E HE fs _ _ _ P1 C1 Fp M) as (mid & Rm & [F2 R2] & Q2 & _). pose proof (Cf _ _ _ _ S2) as Q3.
  assert (n_cfg s4 = n_cfg s3 /\ n_mem s4 = set_nth (n_mem s3) (t_addr (txat (modat s4 p) o)) (in_memory le k vs ++ post)) as [Q4 M4].
  { cbn [step] in S4. revert S4. unfold modify. intro S4. injection S4 as S4. split; [rewrite <- S4; reflexivity|]. rewrite <- S4 at 1. reflexivity. }
  set (w := OpWrite (t_addr (txat (modat s4 p) o)) (in_memory le k vs ++ post)) in *.
  assert (plain E w) as Pw by exact I.
  assert (reached E ((((pre ++ [request d1 t1]) ++ mid) ++ [request d2 t2]) ++ [w]) s4) as R4 by (eapply reached_step; [eapply reached_step; eauto|exact S4]).
  assert (Forall (plain E) ((((pre ++ [request d1 t1]) ++ mid) ++ [request d2 t2]) ++ [w])) as F4 by (apply Forall_app; split; [apply Forall_app; split; [exact F2|constructor; [apply Pl|constructor]]|constructor; [exact Pw|constructor]]).
  assert (m_nr (modat s4 p) = m_nr (modat s0 p)) as Qn by (unfold modat, tab_of; rewrite Q4, Q3, Q2, Q1; reflexivity).
  destruct (C102_bytes k vs E _ s4 s5 ID_PROCESS d3 [] t3 le post p o HE J F4 R4 Cv G En Tc Td) as (new' & Ad & Hin); [rewrite M4; apply nth_error_set_nth_same; exact Lb|exact S5|].
  exists new'. split; [exact Ad|]. rewrite <- Qn. exact Hin.
Qed.
Print Assumptions C111_returns.

(** a big endian application with one object of four 16-bit numbers in each direction; the master sends the numbers, and data for another node *)
Definition words_back : txo := TxO 0 8 (Some (library_tx false Words16)) 0 (Some (library_tx false Words16)).
Definition words_c : modl := Modl [119; 111; 114; 67; 0] 0 1 0 1 0 (repeat words_rx 4) (repeat words_back 4).
Definition c111_pre : list op := [OpAdd words_c 30 [3;0;0;0]%nat [4;0;0;0]%nat; request 1 5].
Definition c111_frame : feed := Feed 30 0 8 [0x12; 0x34; 0xAB; 0xCD; 0; 1; 0xFF; 0xFF] 20.
Definition c111_fs : list feed := [c111_frame; Feed 31 0 8 (repeat 9 8) 21].
Definition q1 : list op := c111_pre ++ [request 0 15].
Definition q2 : list op := q1 ++ [fop (r_mo (rxat (modat (after c111_pre) 0) 0)) c111_frame].
Definition q3 : list op := q2 ++ [request 1 25].
Definition q4 : list op := q3 ++ [OpWrite 4 (in_memory false Words16 values)].
Lemma c111_meets : meets_all E0 c111_fs (after q1) (after q2).
Proof.
  unfold c111_fs. cbn [meets_all]. eexists. split; [apply (meets_take q1 (r_mo (rxat (modat (after c111_pre) 0) 0))); vm_compute; reflexivity|].
  eexists. split; [apply meets_none; vm_compute; reflexivity|]. reflexivity.
Qed.
Lemma c111_convertible : convertible (after q4).
Proof.
  assert (enabled (after q4) = [(0, 0)%nat]) as Q by (vm_compute; reflexivity). intros p o can. rewrite Q. intros [H|[]] L. injection H as <- <-.
  assert (nth_error (n_mem (after q4)) (t_addr (txat (modat (after q4) 0) 0)) = Some (in_memory false Words16 values)) as Q1 by (vm_compute; reflexivity).
  assert (t_conv_s (txat (modat (after q4) 0) 0) = Some (library_tx false Words16)) as Q2 by (vm_compute; reflexivity). assert (t_dlc (txat (modat (after q4) 0) 0) = 8) as Q3 by (vm_compute; reflexivity).
  unfold convert. rewrite Q1, Q2, Q3. rewrite <- (app_nil_r can). change (firstn 8 (in_memory false Words16 values)) with (in_memory false Words16 values ++ []). change 8 with (N.of_nat (width Words16 values)).
  rewrite library_tx_wire; [|split; [cbn; lia|repeat constructor]|exact L]. exists (wire Words16 values ++ []), 0. split; reflexivity.
Qed.
Example C111_case :
  plainly E0 c111_pre (after c111_pre) /\ all_complete E0 (after c111_pre) /\ existsb is_request c111_pre = true /\ step E0 (request 0 15) (after c111_pre) = Ret (tt, after q1) /\ Forall proper c111_fs /\
  meets_all E0 c111_fs (after q1) (after q2) /\ step E0 (request 1 25) (after q2) = Ret (tt, after q3) /\ added (after q2) (after q3) (delta q2 [request 1 25]) /\
  In (0%nat, true) (verdicts (delta q2 [request 1 25])) /\ listening (after c111_pre) 0 = 1%nat /\ own_memory (after q1) 0 0 3 /\ good Words16 values /\
  r_conv_s (rxat (modat (after c111_pre) 0) 0) = Some (library_rx false Words16) /\ r_dlc_s (rxat (modat (after c111_pre) 0) 0) = 8 /\
  nth_error (n_mem (after q1)) 3 = Some (repeat 3 8) /\ firstn 8 (f_data c111_frame) = on_wire Words16 values /\
  nth_error (n_mem (after q3)) 3 = Some (in_memory false Words16 values) /\ step E0 (OpWrite 4 (in_memory false Words16 values)) (after q3) = Ret (tt, after q4) /\
  convertible (after q4) /\ enabled (after q4) = [(0, 0)%nat] /\ t_addr (txat (modat (after q4) 0) 0) = 4%nat /\ sent (delta q4 [request 1 35]) = [(data_tx_id 30 0, 8, on_wire Words16 values)].
Proof.
  split; [split; [apply plainb_ok; vm_compute; reflexivity|apply reached_after; vm_compute; reflexivity]|].
  split; [apply all_compb; vm_compute; reflexivity|]. split; [vm_compute; reflexivity|]. split; [apply after_step; vm_compute; reflexivity|].
  split; [repeat constructor; cbn; lia|]. split; [exact c111_meets|]. split; [apply after_step; vm_compute; reflexivity|]. split; [unfold added; vm_compute; reflexivity|].
  split; [vm_compute; auto|]. split; [vm_compute; reflexivity|]. split; [apply ownb_ok; vm_compute; reflexivity|]. split; [split; [cbn; lia|repeat constructor]|].
  split; [vm_compute; reflexivity|]. split; [vm_compute; reflexivity|]. split; [vm_compute; reflexivity|]. split; [vm_compute; reflexivity|]. split; [vm_compute; reflexivity|].
  split; [apply after_step; vm_compute; reflexivity|]. split; [exact c111_convertible|]. split; [vm_compute; reflexivity|]. split; vm_compute; reflexivity.
Qed.
