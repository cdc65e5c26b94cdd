(** C102: what an application sends is what an application on another node receives. *)
From Verif Require Import Words WordsFacts ErrModel NodeModel NodeSpec NodeSyncProps NodeTxProps NodeEx ConvModel ConvSpec ConvProps ValueSpec.

(** the bytes on the bus *)
Definition wire (k : kind) (vs : list N) : list byte :=
  match k with Bits n => flat_map (le_enc n) vs | Pairs => vs | Words16 => be_all 2 vs | Words32 => be_all 4 vs end.
Lemma le_len n : forall v, length (le_enc n v) = n.
Proof. induction n as [|n IH]; intro v; cbn; auto. Qed.
Lemma host_len le n v : length (host le n v) = n.
Proof. unfold host, be_enc. destruct le; rewrite ?rev_length; apply le_len. Qed.
Lemma flat_len {A} (f : N -> list A) n vs : (forall v, length (f v) = n) -> length (flat_map f vs) = (n * length vs)%nat.
Proof. intro H. induction vs as [|v vs IH]; cbn; [lia|]. rewrite app_length, H, IH. lia. Qed.
Lemma wire_len k vs : good k vs -> length (wire k vs) = width k vs.
Proof.
  destruct k; cbn [good wire width]; intro G; auto.
  - destruct G as (_ & v & -> & _). cbn. rewrite app_nil_r. apply le_len.
  - apply flat_len. intro. unfold be_enc. rewrite rev_length. apply le_len.
  - apply flat_len. intro. unfold be_enc. rewrite rev_length. apply le_len.
Qed.
Lemma memory_len le k vs : good k vs -> length (in_memory le k vs) = width k vs.
Proof.
  destruct k; cbn [good in_memory width]; intro G; auto.
  - destruct G as (_ & v & -> & _). cbn. rewrite app_nil_r. apply host_len.
  - apply flat_len. intro. apply host_len.
  - apply flat_len. intro. apply host_len.
Qed.
Lemma width_le k vs : good k vs -> (width k vs <= 8)%nat.
Proof. destruct k; cbn [good width]; intro G; [apply G|apply G| |]; destruct G; lia. Qed.
Lemma even_half n : Nat.even n = true -> exists m, n = (2 * m)%nat.
Proof. intro H. apply Nat.even_spec in H. destruct H as [m H]. exists m. lia. Qed.
Lemma library_tx_wire le k vs old rest post : good k vs -> length old = width k vs ->
  library_tx le k (old ++ rest) (in_memory le k vs ++ post) (N.of_nat (width k vs)) = (wire k vs ++ rest, 0).
Proof.
  intros G L. unfold library_tx. destruct k; cbn [good width in_memory wire] in *.
  - destruct G as (_ & v & -> & _). cbn [flat_map]. rewrite !app_nil_r. destruct (C54_bits_partial le n v [] post old rest L) as [H _]. cbn [app length] in H. rewrite H. reflexivity.
  - destruct G as (_ & G & F). destruct (even_half _ G) as [m Q]. destruct (C54_nibbles_partial le vs m 0 [] post old rest Q F L ltac:(lia)) as [H _]. cbn [app length] in H. change byte with N in *. rewrite Nat.add_0_r, <- Q in H. rewrite H. reflexivity.
  - destruct G as (_ & F). destruct (C54_uint16_partial le vs [] post old rest 0 F L ltac:(lia)) as [H _]. cbn [app length] in H. change byte with N in *. rewrite Nat.add_0_r in H. rewrite H. reflexivity.
  - destruct G as (_ & F). destruct (C54_uint32_partial le vs [] post old rest 0 F L ltac:(lia)) as [H _]. cbn [app length] in H. change byte with N in *. rewrite Nat.add_0_r in H. rewrite H. reflexivity.
Qed.
Lemma library_rx_memory le k vs old rest post : good k vs -> length old = width k vs ->
  library_rx le k (wire k vs ++ rest) (old ++ post) (N.of_nat (width k vs)) = (in_memory le k vs ++ post, 0).
Proof.
  intros G L. unfold library_rx. destruct k; cbn [good width in_memory wire] in *.
  - destruct G as (_ & v & -> & _). cbn [flat_map]. rewrite !app_nil_r. destruct (C54_bits_partial le n v [] post old rest L) as [_ H]. cbn [app length] in H. rewrite H. reflexivity.
  - destruct G as (_ & G & F). destruct (even_half _ G) as [m Q]. destruct (C54_nibbles_partial le vs m 0 [] post old rest Q F L ltac:(lia)) as [_ H]. cbn [app length] in H. change byte with N in *. rewrite Nat.add_0_r, <- Q in H. rewrite H. reflexivity.
  - destruct G as (_ & F). destruct (C54_uint16_partial le vs [] post old rest 0 F L ltac:(lia)) as [_ H]. cbn [app length] in H. change byte with N in *. rewrite Nat.add_0_r in H. rewrite H. reflexivity.
  - destruct G as (_ & F). destruct (C54_uint32_partial le vs [] post old rest 0 F L ltac:(lia)) as [_ H]. cbn [app length] in H. change byte with N in *. rewrite Nat.add_0_r in H. rewrite H. reflexivity.
Qed.
Lemma split_at {A} n (l : list A) : (n <= length l)%nat -> exists a c, l = a ++ c /\ length a = n.
Proof. intro H. exists (firstn n l), (skipn n l). rewrite firstn_skipn, firstn_length. split; [reflexivity|lia]. Qed.
Lemma cyc_frame le k vs post s p o : good k vs -> t_conv_s (txat (modat s p) o) = Some (library_tx le k) -> t_dlc (txat (modat s p) o) = N.of_nat (width k vs) ->
  nth_error (n_mem s) (t_addr (txat (modat s p) o)) = Some (in_memory le k vs ++ post) ->
  forall l can, length can = 8%nat -> (forall p o can, In (p, o) l -> length can = 8%nat -> exists can' e, convert s p o can = Some (can', e) /\ length can' = 8%nat) -> In (p, o) l ->
  In (data_tx_id (m_nr (modat s p)) o, N.of_nat (width k vs), wire k vs) (cyc_frames s l can).
Proof.
  intros G Hc Hd Hm. pose proof (width_le _ _ G) as Lw. induction l as [|[p' o'] l IH]; intros can Lc Ha Hi; [destruct Hi|]. cbn [cyc_frames]. destruct (Ha p' o' can (or_introl eq_refl) Lc) as (can' & e & Hx & Lx). rewrite Hx. cbv zeta. apply in_or_app.
  destruct Hi as [Hi|Hi]; [injection Hi as -> ->; left|right; apply IH; auto; intros; eapply Ha; eauto; right; assumption].
  destruct (split_at (width k vs) can) as (old & rest & -> & Lo); [lia|].
  unfold convert in Hx. rewrite Hm, Hc, Hd in Hx. rewrite firstn_app, firstn_all2 in Hx by (rewrite memory_len by exact G; exact Lw). rewrite library_tx_wire in Hx by auto. injection Hx as <- <-.
  rewrite Hd. change (0 =? ERR_OK) with true. cbv iota. left. rewrite Nat2N.id. rewrite <- (wire_len _ _ G) at 2. rewrite firstn_app, firstn_all, Nat.sub_diag, firstn_O, app_nil_r. reflexivity.
Qed.

(** C102: whatever values an application of node A has in a transmit object, the next process request makes A send a frame with the
    identifier of that object, and every node B, of the same or the other byte order, that accepts a frame with these bytes for a receive
    object of the same kind then has the same values in its application's memory.  The rest of the buffer that B's driver hands over, and
    the memory of the application behind the object, are arbitrary; the latter is not changed. *)
Theorem C102_across : forall k vs A preA sA sA' id dlc data now leA postA p o,
  env_ok A -> length (JUNK A) = 8%nat -> Forall (plain A) preA -> reached A preA sA -> convertible sA -> good k vs ->
  In (p, o) (enabled sA) -> t_conv_s (txat (modat sA p) o) = Some (library_tx leA k) -> t_dlc (txat (modat sA p) o) = N.of_nat (width k vs) ->
  nth_error (n_mem sA) (t_addr (txat (modat sA p) o)) = Some (in_memory leA k vs ++ postA) ->
  step A (OpFrame MO_PROCESS id dlc data now) sA = Ret (tt, sA') ->
  exists new d, added sA sA' new /\ In (data_tx_id (m_nr (modat sA p)) o, N.of_nat (width k vs), d) (sent new) /\
    forall B preB sB sB' mo idB buf nowB leB old postB q j,
      reached B preB sB -> firstn (width k vs) buf = d -> accepted B sB (OpFrame mo idB (N.of_nat (width k vs)) buf nowB) q j = true ->
      r_conv_s (rxat (modat sB q) j) = Some (library_rx leB k) -> length old = width k vs ->
      nth_error (n_mem sB) (r_addr (rxat (modat sB q) j)) = Some (old ++ postB) ->
      step B (OpFrame mo idB (N.of_nat (width k vs)) buf nowB) sB = Ret (tt, sB') ->
      nth_error (n_mem sB') (r_addr (rxat (modat sB q) j)) = Some (in_memory leB k vs ++ postB).
Proof.
  intros k vs A preA sA sA' id dlc data now leA postA p o HE J P R C G I Hc Hd Hm H. destruct (C05_every_enabled_object_once A preA id dlc data now sA sA' HE P R H) as (new & st & Ad & _ & S). exists new, (wire k vs). split; [exact Ad|].
  split; [rewrite S; apply in_or_app; left; eapply cyc_frame; eauto|].
  intros B preB sB sB' mo idB buf nowB leB old postB q j RB Hb Ac Hr Lo Hx Hs. destruct (C10_accepted_frame_effect B preB sB mo idB _ buf nowB sB' q j RB Ac Hs) as (g & app & Hg & Ha & Hn & _).
  rewrite Hr in Hg. injection Hg as <-. rewrite Hx in Ha. injection Ha as <-. rewrite Hn, <- (firstn_skipn (width k vs) buf), Hb, library_rx_memory by auto. reflexivity.
Qed.
Print Assumptions C102_across.

(** The bytes on the bus are fixed: numbers most significant byte first, the number of a [Bits] object least significant byte first,
    whatever the platform. *)
Theorem C102_bytes : forall k vs A preA sA sA' id dlc data now leA postA p o,
  env_ok A -> length (JUNK A) = 8%nat -> Forall (plain A) preA -> reached A preA sA -> convertible sA -> good k vs ->
  In (p, o) (enabled sA) -> t_conv_s (txat (modat sA p) o) = Some (library_tx leA k) -> t_dlc (txat (modat sA p) o) = N.of_nat (width k vs) ->
  nth_error (n_mem sA) (t_addr (txat (modat sA p) o)) = Some (in_memory leA k vs ++ postA) ->
  step A (OpFrame MO_PROCESS id dlc data now) sA = Ret (tt, sA') ->
  exists new, added sA sA' new /\ In (data_tx_id (m_nr (modat sA p)) o, N.of_nat (width k vs),
    match k with Bits n => flat_map (fun v => rev (in_memory false k [v])) vs | Pairs => vs | _ => in_memory false k vs end) (sent new).
Proof.
  intros k vs A preA sA sA' id dlc data now leA postA p o HE J P R C G I Hc Hd Hm H. destruct (C05_every_enabled_object_once A preA id dlc data now sA sA' HE P R H) as (new & st & Ad & _ & S). exists new. split; [exact Ad|].
  rewrite S. apply in_or_app. left. pose proof (cyc_frame leA k vs postA sA p o G Hc Hd Hm (enabled sA) (JUNK A) J C I) as X. destruct k; try exact X. cbn [wire in_memory] in *. replace (flat_map (fun v => rev (flat_map (host false n) [v])) vs) with (flat_map (le_enc n) vs); [exact X|].
  apply flat_map_ext. intro v. cbn [flat_map]. rewrite app_nil_r. unfold host, be_enc. rewrite rev_involutive. reflexivity.
Qed.
Print Assumptions C102_bytes.

(** node A has a little endian application with an object of four 16-bit numbers, node B a big endian one *)
Definition words_tx : txo := TxO 0 8 (Some (library_tx true Words16)) 0 (Some (library_tx true Words16)).
Definition words_rx : rxo := RxO 0 8 (Some (library_rx false Words16)) 0 (Some (library_rx false Words16)) 0.
Definition words_a : modl := Modl [119; 111; 114; 65; 0] 0 0 0 1 0 (repeat rx8 4) (repeat words_tx 4).
Definition words_b : modl := Modl [119; 111; 114; 66; 0] 0 1 0 0 0 (repeat words_rx 4) (repeat tx8 4).
Definition values : list N := [0x1234; 0xABCD; 1; 65535].
Definition ops_a : list op := [OpAdd words_a 10 [0;0;0;0]%nat [4;0;0;0]%nat; OpWrite 4 (in_memory true Words16 values)].
Definition ops_b : list op := [OpAdd words_b 30 [3;0;0;0]%nat [0;0;0;0]%nat].
Definition mo_b : nat := r_mo (rxat (modat (after ops_b) 0) 0).
Definition frame_b : op := OpFrame mo_b (data_id 30 0) 8 [0x12; 0x34; 0xAB; 0xCD; 0; 1; 0xFF; 0xFF] 0.
Example C102_case :
  reached E0 ops_a (after ops_a) /\ Forall (plain E0) ops_a /\ convertible (after ops_a) /\ good Words16 values /\ In (0, 0)%nat (enabled (after ops_a)) /\
  t_conv_s (txat (modat (after ops_a) 0) 0) = Some (library_tx true Words16) /\ nth_error (n_mem (after ops_a)) (t_addr (txat (modat (after ops_a) 0) 0)) = Some (in_memory true Words16 values) /\
  sent (delta ops_a [request 1 5]) = [(data_tx_id 10 0, 8, [0x12; 0x34; 0xAB; 0xCD; 0; 1; 0xFF; 0xFF])] /\
  reached E0 ops_b (after ops_b) /\ accepted E0 (after ops_b) frame_b 0 0 = true /\ r_conv_s (rxat (modat (after ops_b) 0) 0) = Some (library_rx false Words16) /\
  nth_error (n_mem (after (ops_b ++ [frame_b]))) 3 = Some (in_memory false Words16 values).
Proof.
  split; [apply reached_after; vm_compute; reflexivity|]. split; [apply plainb_ok; vm_compute; reflexivity|]. split.
  { assert (enabled (after ops_a) = [(0, 0)%nat]) as Q by (vm_compute; reflexivity). intros p o can. rewrite Q. intros [H|[]] L. injection H as <- <-.
    assert (nth_error (n_mem (after ops_a)) (t_addr (txat (modat (after ops_a) 0) 0)) = Some (in_memory true Words16 values)) as Q1 by (vm_compute; reflexivity).
    assert (t_conv_s (txat (modat (after ops_a) 0) 0) = Some (library_tx true Words16)) as Q2 by (vm_compute; reflexivity). assert (t_dlc (txat (modat (after ops_a) 0) 0) = 8) as Q3 by (vm_compute; reflexivity).
    unfold convert. rewrite Q1, Q2, Q3. rewrite <- (app_nil_r can). change (firstn 8 (in_memory true Words16 values)) with (in_memory true Words16 values ++ []). change 8 with (N.of_nat (width Words16 values)).
    rewrite library_tx_wire; [|split; [cbn; lia|repeat constructor]|exact L]. exists (wire Words16 values ++ []), 0. split; reflexivity. }
  split; [split; [cbn; lia|repeat constructor]|]. split; [vm_compute; auto|]. split; [vm_compute; reflexivity|]. split; [vm_compute; reflexivity|]. split; [vm_compute; reflexivity|].
  split; [apply reached_after; vm_compute; reflexivity|]. split; [vm_compute; reflexivity|]. split; [vm_compute; reflexivity|]. vm_compute. reflexivity.
Qed.
