(** Properties of the conversion functions (C54). *)
From Verif Require Import Words WordsFacts Bits ConvModel ConvSpec ConvProofs.

(** C54: bit fields are least significant byte first on the bus, on every platform, and are read back unchanged. *)
Theorem C54_bits_partial : forall le n v pre post old rest, length old = n ->
  tx_bit le (old ++ rest) (pre ++ host le n v ++ post) (length pre) (N.of_nat n) = Some (le_enc n v ++ rest) /\
  rx_bit le (le_enc n v ++ rest) (pre ++ old ++ post) (length pre) (N.of_nat n) = Some (pre ++ host le n v ++ post).
Proof. intros. split; [apply tx_bit_eq|apply rx_bit_eq]; assumption. Qed.
Print Assumptions C54_bits_partial.
Example C54_bits_ex : tx_bit false [0; 0; 0; 9] [7; 0x12; 0x34; 0x56] 1 3 = Some [0x56; 0x34; 0x12; 9] /\
  rx_bit false [0x56; 0x34; 0x12; 9] [7; 0; 0; 0] 1 3 = Some [7; 0x12; 0x34; 0x56].
Proof. split; reflexivity. Qed.

(** C54: nibbles are transferred byte for byte, in words of two bytes; an odd last byte is not transferred. *)
Theorem C54_nibbles_partial : forall le xs n r pre post old rest, length xs = (2 * n)%nat -> Forall is_byte xs -> length old = length xs -> (r < 2)%nat ->
  tx_nibble le (old ++ rest) (pre ++ xs ++ post) (length pre) (N.of_nat (2 * n + r)) = Some (xs ++ rest) /\
  rx_nibble le (xs ++ rest) (pre ++ old ++ post) (length pre) (N.of_nat (2 * n + r)) = Some (pre ++ xs ++ post).
Proof.
  intros le xs n r pre post old rest L F LO R. split.
  - exact (nibble_eq le xs pre post [] old rest n r L F LO R).
  - exact (nibble_eq le xs [] rest pre old post n r L F LO R).
Qed.
Print Assumptions C54_nibbles_partial.
Example C54_nibbles_ex : tx_nibble true [0; 0; 0; 0; 77] [1; 2; 3; 4; 5] 0 5 = Some [1; 2; 3; 4; 77].
Proof. reflexivity. Qed.

(** C54: 16-bit numbers are most significant byte first on the bus, on every platform, and are read back unchanged; [r]: bytes
    of an incomplete last number are not transferred. *)
Theorem C54_uint16_partial : forall le vs pre post old rest r, Forall (fits 2) vs -> length old = (2 * length vs)%nat -> (r < 2)%nat ->
  tx_uint16 le (old ++ rest) (pre ++ host_all le 2 vs ++ post) (length pre) (N.of_nat (2 * length vs + r)) = Some (be_all 2 vs ++ rest) /\
  rx_uint16 le (be_all 2 vs ++ rest) (pre ++ old ++ post) (length pre) (N.of_nat (2 * length vs + r)) = Some (pre ++ host_all le 2 vs ++ post).
Proof. intros. split; [apply tx_uint16_eq|apply rx_uint16_eq]; assumption. Qed.
Print Assumptions C54_uint16_partial.
Example C54_uint16_ex : tx_uint16 true [0; 0; 0; 0] (host_all true 2 [0x1234; 0xABCD]) 0 4 = Some [0x12; 0x34; 0xAB; 0xCD] /\
  tx_uint16 false [0; 0; 0; 0] (host_all false 2 [0x1234; 0xABCD]) 0 4 = Some [0x12; 0x34; 0xAB; 0xCD].
Proof. split; reflexivity. Qed.

(** C54: the same for 32-bit numbers. *)
Theorem C54_uint32_partial : forall le vs pre post old rest r, Forall (fits 4) vs -> length old = (4 * length vs)%nat -> (r < 4)%nat ->
  tx_uint32 le (old ++ rest) (pre ++ host_all le 4 vs ++ post) (length pre) (N.of_nat (4 * length vs + r)) = Some (be_all 4 vs ++ rest) /\
  rx_uint32 le (be_all 4 vs ++ rest) (pre ++ old ++ post) (length pre) (N.of_nat (4 * length vs + r)) = Some (pre ++ host_all le 4 vs ++ post).
Proof. intros. split; [apply tx_uint32_eq|apply rx_uint32_eq]; assumption. Qed.
Print Assumptions C54_uint32_partial.
Example C54_uint32_ex : tx_uint32 true [0; 0; 0; 0] (host_all true 4 [0x12345678]) 0 4 = Some [0x12; 0x34; 0x56; 0x78] /\
  rx_uint32 true [0x12; 0x34; 0x56; 0x78] [0; 0; 0; 0] 0 4 = Some (host_all true 4 [0x12345678]).
Proof. split; vm_compute; reflexivity. Qed.

(** C54: three 32-bit patterns are packed into 64 bits: 20 bits each, most significant first, and four zero bits. *)
Theorem C54_sint20_partial : forall a b c pre post old rest, fits 4 a -> fits 4 b -> fits 4 c -> length old = 8%nat ->
  exists f, sint32_to_sint20 (old ++ rest) (pre ++ host_all true 4 [a; b; c] ++ post) (length pre) = Some (f ++ rest) /\ length f = 8%nat /\
  Forall is_byte f /\ be_num f = (a mod 2 ^ 20) * 2 ^ 44 + (b mod 2 ^ 20) * 2 ^ 24 + (c mod 2 ^ 20) * 2 ^ 4.
Proof.
  intros a b c pre post old rest A B C L. eexists. split; [exact (sint20_eq a b c pre post old rest A B C L)|]. split; [reflexivity|].
  split; [repeat (apply Forall_cons; [unfold is_byte; lia|]); constructor|].
  unfold be_num. cbn [fold_left]. change (2 ^ 20) with 1048576. change (2 ^ 44) with 17592186044416. change (2 ^ 24) with 16777216. change (2 ^ 4) with 16.
  assert (D : forall x, x mod 1048576 = x / 4096 mod 256 * 4096 + x / 16 mod 256 * 16 + x mod 16) by (clear; intro; lia).
  assert (D2 : forall x, x mod 1048576 = x / 65536 mod 16 * 65536 + x / 256 mod 256 * 256 + x mod 256) by (clear; intro; lia).
  rewrite (D a), (D2 b), (D c). clear.
  generalize (a / 4096 mod 256) (a / 16 mod 256) (a mod 16) (b / 65536 mod 16) (b / 256 mod 256) (b mod 256) (c / 4096 mod 256) (c / 16 mod 256) (c mod 16).
  clear. intros. lia.
Qed.
Print Assumptions C54_sint20_partial.
Example C54_sint20_ex : sint32_to_sint20 (repeat 0 8) (host_all true 4 [0xFFFFFFFE; 0x12345; 0x6789A]) 0 = Some [0xFF; 0xFF; 0xE1; 0x23; 0x45; 0x67; 0x89; 0xA0].
Proof. vm_compute. reflexivity. Qed.

(** the receive conversion of message object [k] on the module whose data start at [p] (objects of eight bytes) *)
Definition rx12 (k : nat) (can app : list byte) (p : nat) : option (list byte) :=
  match k with O => rx_uint12_1 can app p 8 | 1%nat => rx_uint12_2 can app (p + 8) 8 | _ => rx_uint12_3 can app (p + 16) 8 end.
Definition tx12 (k : nat) (can app : list byte) (p : nat) : option (list byte) :=
  match k with O => tx_uint12_1 can app p 8 | 1%nat => tx_uint12_2 can app (p + 8) 8 | _ => tx_uint12_3 can app (p + 16) 8 end.
Definition orders : list (list nat) := [[0; 1; 2]; [0; 2; 1]; [1; 0; 2]; [1; 2; 0]; [2; 0; 1]; [2; 1; 0]]%nat.
Lemma rx12_step cs ws k pre post : length cs = 16%nat -> length ws = 16%nat -> Forall (fun c => c < 4096) cs -> Forall (fun v => v < 65536) ws ->
  rx12 k (frame12 cs k) (pre ++ host_all true 2 ws ++ post) (length pre) = Some (pre ++ host_all true 2 (words12 cs ws k) ++ post).
Proof.
  intros Lc Lw Fc Fw. pose proof (frame12_bytes cs k Fc) as Fb.
  assert (L8 : length (frame12 cs k) = 8%nat).
  { destruct (list16 _ Lc) as (? & ? & ? & ? & ? & ? & ? & ? & ? & ? & ? & ? & ? & ? & ? & ? & ->). destruct k as [|[|k]]; reflexivity. }
  rewrite <- (app_nil_r (frame12 cs k)) at 1. destruct k as [|[|k]]; cbn [rx12 words12].
  - apply rx12_1; assumption.
  - apply rx12_2; assumption.
  - apply rx12_3; assumption.
Qed.
(** C54: the three frames of sixteen 12-bit channels, received in any order, leave exactly the channel values in memory, whatever
    was there before. *)
Theorem C54_uint12_rx_partial : forall cs ws pre post i j k, length cs = 16%nat -> Forall (fun c => c < 4096) cs -> length ws = 16%nat -> Forall (fits 2) ws ->
  In [i; j; k] orders -> exists m1 m2,
  rx12 i (frame12 cs i) (pre ++ host_all true 2 ws ++ post) (length pre) = Some m1 /\
  rx12 j (frame12 cs j) m1 (length pre) = Some m2 /\
  rx12 k (frame12 cs k) m2 (length pre) = Some (pre ++ host_all true 2 cs ++ post).
Proof.
  intros cs ws pre post i j k Lc Fc Lw Fw I. pose proof (fits2 _ Fw) as F.
  destruct (words12_ok cs ws i Lc Lw Fc F) as [L1 F1]. destruct (words12_ok cs _ j Lc L1 Fc F1) as [L2 F2].
  eexists _, _. split; [apply rx12_step; assumption|]. split; [apply rx12_step; assumption|]. rewrite rx12_step by assumption.
  rewrite words12_final by assumption. reflexivity.
Qed.
Print Assumptions C54_uint12_rx_partial.
(** C54: given the application memory, the transmit conversions produce these frames. *)
Theorem C54_uint12_tx_partial : forall cs pre post old k, length cs = 16%nat -> Forall (fun c => c < 4096) cs -> length old = 8%nat -> (k < 3)%nat ->
  tx12 k old (pre ++ host_all true 2 cs ++ post) (length pre) = Some (frame12 cs k).
Proof.
  intros cs pre post old k Lc Fc Lo K.
  assert (F : Forall (fun v => v < 65536) cs) by (eapply Forall_impl; [|exact Fc]; intros v H; cbn beta in *; lia).
  destruct k as [|[|[|k]]]; [| | |lia]; cbn [tx12].
  - unfold tx_uint12_1. rewrite <- (firstn_skipn 8 cs) at 1. rewrite host_all_app, <- app_assoc. change (N.to_nat 8) with 8%nat.
    assert (L8 : length (firstn 8 cs) = 8%nat) by (rewrite firstn_length; lia).
    pose proof (tx12_high_eq (firstn 8 cs) pre (host_all true 2 (skipn 8 cs) ++ post) [] old []) as E. rewrite L8 in E. cbn [app] in E. rewrite !app_nil_r in E.
    etransitivity; [apply E; [exact Lo|apply Forall_firstn; exact F]|]. f_equal. cbn [frame12]. apply map_ext_in. intros c Hc. unfold high8.
    rewrite Forall_forall in Fc. specialize (Fc c). assert (In c cs) by (rewrite <- (firstn_skipn 8 cs); apply in_or_app; auto). specialize (Fc H). lia.
  - unfold tx_uint12_2. rewrite <- (firstn_skipn 8 cs) at 1. rewrite host_all_app, <- app_assoc. change (N.to_nat 8) with 8%nat.
    assert (P : (length pre + 8 + 8)%nat = length (pre ++ host_all true 2 (firstn 8 cs))) by (rewrite app_length, host_all_length, firstn_length; lia). rewrite P, (app_assoc pre).
    assert (L8 : length (skipn 8 cs) = 8%nat) by (rewrite skipn_length; lia).
    pose proof (tx12_high_eq (skipn 8 cs) (pre ++ host_all true 2 (firstn 8 cs)) post [] old []) as E. rewrite L8 in E. cbn [app] in E. rewrite !app_nil_r in E.
    etransitivity; [apply E; [exact Lo|apply Forall_skipn; exact F]|]. f_equal. cbn [frame12]. apply map_ext_in. intros c Hc. unfold high8.
    rewrite Forall_forall in Fc. specialize (Fc c). assert (In c cs) by (rewrite <- (firstn_skipn 8 cs); apply in_or_app; auto). specialize (Fc H). lia.
  - unfold tx_uint12_3. destruct (Nat.ltb_spec (length pre + 16) 16); [lia|]. rewrite Nat.add_sub. destruct (pairs_of 8 cs Lc F) as (ps & <- & Lp & Fp). change (N.to_nat 8) with 8%nat.
    pose proof (tx12_low_eq ps pre post [] old []) as E. rewrite Lp in E. cbn [app] in E. rewrite !app_nil_r in E. etransitivity; [apply E; assumption|]. f_equal. cbn [frame12].
    clear. induction ps as [|[a b] ps IH]; [reflexivity|]. cbn. unfold pair_words in IH. rewrite IH. reflexivity.
Qed.
Print Assumptions C54_uint12_tx_partial.
Example C54_uint12_ex : let cs := [0x123; 0x456; 0x789; 0xABC; 1; 2; 3; 4; 5; 6; 7; 8; 9; 10; 11; 0xFFF] in
  frame12 cs 0 = [0x12; 0x45; 0x78; 0xAB; 0; 0; 0; 0] /\ frame12 cs 2 = [0x36; 0x9C; 0x12; 0x34; 0x56; 0x78; 0x9A; 0xBF] /\
  tx12 2 (repeat 0 8) (host_all true 2 cs) 0 = Some (frame12 cs 2).
Proof. vm_compute. auto. Qed.

(** C54, refuted for the 12-bit transmit conversions in the stack: the stack passes a copy of eight bytes of the object, and the
    conversion of the second object reads sixteen bytes behind it, which are not initialised; whatever these are, there are
    channel values that are sent wrong. *)
Theorem C54_uint12_stack_refuted : forall (junk can : list byte), length junk = 32%nat -> Forall is_byte junk -> length can = 8%nat ->
  exists cs, length cs = 16%nat /\ Forall (fun c => c < 4096) cs /\
  tx_main tx_uint12_2 can (host_all true 2 cs) 8 junk 1 8 <> Some (frame12 cs 1).
Proof.
  intros junk can Lj Fj Lc.
  assert (J : exists j0 j1 j2, junk = j0 ++ j1 ++ j2 /\ length j0 = 8%nat /\ length j1 = 8%nat /\ length j2 = 16%nat).
  { exists (firstn 8 junk), (firstn 8 (skipn 8 junk)), (skipn 8 (skipn 8 junk)). rewrite !firstn_skipn. repeat split; rewrite ?firstn_length, ?skipn_length, ?Lj; reflexivity. }
  destruct J as (j0 & j1 & j2 & -> & L0 & L1 & L2). apply Forall_app in Fj. destruct Fj as [_ Fj]. apply Forall_app in Fj. destruct Fj as [_ Fj].
  destruct (words_of true 8 j2 L2 Fj) as (ws & Fw & Lw & W).
  assert (R : forall cs, length cs = 16%nat -> tx_main tx_uint12_2 can (host_all true 2 cs) 8 (j0 ++ j1 ++ j2) 1 8 = Some (map (fun w => w / 16 mod 256) ws)).
  { intros cs Ls. unfold tx_main. rewrite <- (firstn_skipn 4 cs), host_all_app. set (a := host_all true 2 (firstn 4 cs)). set (b := host_all true 2 (skipn 4 cs)).
    assert (La : length a = 8%nat) by (unfold a; rewrite host_all_length, firstn_length; lia).
    assert (Lb : length b = 24%nat) by (unfold b; rewrite host_all_length, skipn_length; lia).
    rewrite <- (firstn_skipn 8 b). assert (L8 : length (firstn 8 b) = 8%nat) by (rewrite firstn_length; lia).
    pose proof (copy_up_eq (firstn 8 b) a (skipn 8 b) j0 j1 j2) as E. rewrite L8, La in E. assert (L0' : @length byte j0 = 8%nat) by exact L0. rewrite L0' in E. change (8 * 1)%nat with 8%nat. rewrite E by exact L1.
    unfold tx_uint12_2. change (N.to_nat 8) with 8%nat. rewrite <- W.
    assert (P : (8 + 8)%nat = length (j0 ++ firstn 8 b)) by (rewrite app_length; lia). rewrite P, (app_assoc j0).
    pose proof (tx12_high_eq ws (j0 ++ firstn 8 b) [] [] can []) as T. rewrite Lw in T. cbn [app] in T. rewrite !app_nil_r in T. apply T; [exact Lc|exact Fw]. }
  set (z := repeat 0 16). set (o := repeat 4095 16).
  destruct (list_eq_dec N.eq_dec (map (fun w => w / 16 mod 256) ws) (frame12 z 1)) as [E|E].
  - exists o. split; [reflexivity|]. split; [repeat constructor|]. rewrite R by reflexivity. rewrite E. vm_compute. discriminate.
  - exists z. split; [reflexivity|]. split; [repeat constructor|]. rewrite R by reflexivity. intro X. injection X as X. exact (E X).
Qed.
Print Assumptions C54_uint12_stack_refuted.
