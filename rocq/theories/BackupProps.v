(** Properties of a backup and its restoration: C99. *)
From Verif Require Import Words ErrModel NodeModel LookModel LookSpec XBufModel XBufSpec XBufProofs AsyncModel AsyncSpec XloadModel XloadSpec XloadProofs XloadRun XloadProps BackupSpec.

Lemma payloads_app a b : payloads (a ++ b) = payloads a ++ payloads b.
Proof. induction a as [|[] a IH]; cbn; rewrite ?IH; reflexivity. Qed.
Lemma up_payloads nr data : payloads (up_frames nr data) =
  map (fun m => 0x15 :: m) (up_msgs data) ++ [0x16 :: two (N.of_nat (length data)) ++ two (N.of_nat (length (up_msgs data))) ++ [0; 0; 0]].
Proof. unfold up_frames. rewrite payloads_app. f_equal. induction (up_msgs data) as [|m l IH]; [reflexivity|]. cbn. rewrite IH. reflexivity. Qed.
Lemma relay_app tab silent nr p a b : relay tab silent nr p (a ++ b) = relay tab silent nr p a ++ relay tab silent nr p b.
Proof. unfold relay. apply map_app. Qed.
Lemma relay_data tab silent nr p ms : relay tab silent nr p (map (fun m => 0x15 :: m) ms) = data_ops tab silent nr ms.
Proof. unfold relay, data_ops. rewrite map_map. reflexivity. Qed.
Definition copy (data : list byte) (n : nat) (p : hprog) : blk := Blk data (repeat 0 n) (up_msgs data) p.
Lemma relay_up tab silent nr p nra data n : relay tab silent nr p (payloads (up_frames nra data)) = blk_ops tab silent nr (copy data n p).
Proof. rewrite up_payloads, relay_app, relay_data. reflexivity. Qed.
Lemma copy_ok data : exists n, concat (up_msgs data) = data ++ repeat 0 n /\ Forall (fun m => length m = 7%nat) (up_msgs data) /\ (length data + n = room data)%nat.
Proof.
  destruct (up_concat data) as (n & A & B & C). exists n. split; [exact A|]. split; [exact B|].
  assert (LC : length (concat (up_msgs data)) = (7 * length (up_msgs data))%nat).
  { clear -B. induction B as [|m ms L F IH]; [reflexivity|]. cbn [concat length]. rewrite app_length. lia. }
  rewrite A, app_length, repeat_length in LC. unfold room.
  destruct C as [C|[C1 C2]]; [|subst; cbn; reflexivity]. destruct data as [|x data]; [cbn [length] in *; change (length (up_msgs [])) with 1%nat in LC; lia|]. cbn [length] in *. lia.
Qed.
Lemma reader_only n : buffer_only (reader n).
Proof. induction n; cbn; constructor; auto. Qed.
Lemma reader_reads size : forall a l, on_list size (reader (length a)) (a ++ l) = (l, map read_byte a, ERR_OK).
Proof. induction a as [|x a IH]; intro l; [reflexivity|]. cbn [length reader on_list app list_step]. rewrite IH. reflexivity. Qed.
Lemma up_ran size tab silent nr name l2 mb delay data ticks rest s hu ha es s' o : uploading s tab silent nr hu ha -> N.of_nat (length data) < 65536 -> length name = 7%nat ->
  xl_run size (upload_ops tab silent nr name l2 mb delay rest data ticks) s = Some (es, s', o) ->
  payloads o = payloads (up_frames nr data) /\ x_bytes s' = N.of_nat (length data) /\ c_nr (x_comp s') = nr /\ x_hand s' = x_hand s.
Proof.
  intros [[N1 N2] LI ID HU HA] D NM RUN. destruct (up_request _ _ _ _ _ _ _ _ _ _ _ _ _ _ _ _ _ N1 N2 D NM LI ID HU RUN) as (-> & R). split; [reflexivity|exact R].
Qed.

(** ** C99: backup and restoration.  One stack, in any state without a transfer, uploads a component as one block of any
    length below 65536.  The master passes the contents of its frames on to a module of another stack, reached by any
    history: a download of this one block.  If the buffer has room for the messages, the application there finds exactly the
    bytes that were uploaded, whatever it does with the buffer; the download succeeds. *)
Theorem C99_restore_partial : forall sizeA tabA silA nrA name l2 mb delay data ticks rest sA hu ha esA sA' oA
    size pre s tab silent nr hs hb he nm crc id c maxb dl p l1 o,
  uploading sA tabA silA nrA hu ha -> N.of_nat (length data) < 65536 -> length name = 7%nat ->
  xl_run sizeA (upload_ops tabA silA nrA name l2 mb delay rest data ticks) sA = Some (esA, sA', oA) ->
  ready size pre s tab silent nr hs hb he -> request nm crc id -> requested s tab nr nm crc id c -> maxb < 65536 -> dl < 256 ->
  buffer_only p -> on_list size p data = (l1, o, ERR_OK) -> (room data <= size)%nat ->
  exists es s', xl_run size (start_ops tab silent nr nm crc id (accept nr maxb dl) ++ relay tab silent nr p (payloads oA) ++ [end_op tab silent nr]) s =
     Some (es, s', [XCalled HStartReq hs c; start_msg nr maxb dl] ++ [XCalled HBlockEnd hb c] ++ o ++ [ack_msg nr] ++ [XCalled HEnd he c; end_ack_msg nr])
   /\ Forall (fun e => e = ERR_OK) es /\ x_prog s' = Idle.
Proof.
  intros sizeA tabA silA nrA name l2 mb delay data ticks rest sA hu ha esA sA' oA size pre s tab silent nr hs hb he nm crc id c maxb dl p l1 o UP D NM RUN RD RQ RC M DL BO OL FIT.
  destruct (up_ran _ _ _ _ _ _ _ _ _ _ _ _ _ _ _ _ _ UP D NM RUN) as (-> & _).
  destruct (copy_ok data) as (n & A & B & C). rewrite (relay_up _ _ _ _ _ _ n).
  assert (DE : delivered size nr hb c [] [copy data n p] l1 (XCalled HBlockEnd hb c :: o ++ [ack_msg nr])).
  { apply (DeCons _ _ _ _ [] (copy data n p) l1 o [] l1 []); [split; [exact B|exact A]|exact BO|cbn [copy b_bytes b_fill length]; rewrite repeat_length; lia|exact OL|constructor]. }
  destruct (dl_finish _ _ _ _ _ _ _ _ _ _ _ _ _ _ _ _ _ _ RD RQ RC M DL DE) as (es & s' & E & F & P).
  exists es, s'. split; [|auto]. unfold dl_ops in E. cbn [map concat] in E. rewrite app_nil_r, <- app_assoc in E. rewrite E. cbn [app]. rewrite <- app_assoc. reflexivity.
Qed.
Print Assumptions C99_restore_partial.
(** so an application that reads as many bytes as were uploaded reads the bytes that were uploaded *)
Theorem C99_same_bytes_partial : forall sizeA tabA silA nrA name l2 mb delay data ticks rest sA hu ha esA sA' oA
    size pre s tab silent nr hs hb he nm crc id c maxb dl,
  uploading sA tabA silA nrA hu ha -> N.of_nat (length data) < 65536 -> length name = 7%nat ->
  xl_run sizeA (upload_ops tabA silA nrA name l2 mb delay rest data ticks) sA = Some (esA, sA', oA) ->
  ready size pre s tab silent nr hs hb he -> request nm crc id -> requested s tab nr nm crc id c -> maxb < 65536 -> dl < 256 -> (room data <= size)%nat ->
  exists es s', xl_run size (start_ops tab silent nr nm crc id (accept nr maxb dl) ++ relay tab silent nr (reader (length data)) (payloads oA) ++ [end_op tab silent nr]) s =
     Some (es, s', [XCalled HStartReq hs c; start_msg nr maxb dl] ++ [XCalled HBlockEnd hb c] ++ map read_byte data ++ [ack_msg nr] ++ [XCalled HEnd he c; end_ack_msg nr])
   /\ Forall (fun e => e = ERR_OK) es /\ x_prog s' = Idle.
Proof.
  intros. eapply C99_restore_partial; eauto; [apply reader_only|]. rewrite <- (app_nil_r data) at 2. apply (reader_reads size data []).
Qed.
Print Assumptions C99_same_bytes_partial.
(** data messages of the backup are lost: the download is terminated with an error and no application sees a byte of it *)
Theorem C99_lost_partial : forall sizeA tabA silA nrA name l2 mb delay data ticks rest sA hu ha esA sA' oA
    size pre s tab silent nr hs hb he nm crc id c maxb dl p ds,
  uploading sA tabA silA nrA hu ha -> N.of_nat (length data) < 65536 -> length name = 7%nat ->
  xl_run sizeA (upload_ops tabA silA nrA name l2 mb delay rest data ticks) sA = Some (esA, sA', oA) ->
  ready size pre s tab silent nr hs hb he -> request nm crc id -> requested s tab nr nm crc id c -> maxb < 65536 -> dl < 256 -> (room data <= size)%nat ->
  fewer ds (removelast (payloads oA)) ->
  exists es s', xl_run size (start_ops tab silent nr nm crc id (accept nr maxb dl) ++ relay tab silent nr p (ds ++ [last (payloads oA) []])) s =
     Some (es ++ [E_COUNT_NOT_MATCH], s', [XCalled HStartReq hs c; start_msg nr maxb dl] ++ [term_msg nr E_COUNT_NOT_MATCH]) /\ x_prog s' = Idle.
Proof.
  intros sizeA tabA silA nrA name l2 mb delay data ticks rest sA hu ha esA sA' oA size pre s tab silent nr hs hb he nm crc id c maxb dl p ds UP D NM RUN RD RQ RC M DL FIT [SU NE].
  destruct (up_ran _ _ _ _ _ _ _ _ _ _ _ _ _ _ _ _ _ UP D NM RUN) as (E & _). rewrite E, up_payloads in *. rewrite removelast_last in SU, NE. rewrite last_last.
  destruct (copy_ok data) as (n & A & B & C).
  assert (LE : forall ds ms, sub ds (map (fun m : list byte => 0x15 :: m) ms) -> Forall (fun m => length m = 7%nat) ms ->
     exists ks, ds = map (fun m => 0x15 :: m) ks /\ Forall (fun m => length m = 7%nat) ks /\ (length (concat ks) <= length (concat ms))%nat /\ (length ks <= length ms)%nat).
  { clear. intros ds ms. revert ds. induction ms as [|m ms IH]; intros ds S F; cbn [map] in S; inversion S; subst.
    - exists []. repeat split; auto.
    - inversion F; subst. destruct (IH a H1 H3) as (ks & K1 & K2 & K3 & K4). exists (m :: ks). cbn [map concat length]. rewrite K1, !app_length. split; [reflexivity|]. split; [constructor; assumption|]. change byte with N in *. split; lia.
    - inversion F; subst. destruct (IH ds H1 H3) as (ks & K1 & K2 & K3 & K4). exists ks. cbn [concat length]. rewrite !app_length. split; [exact K1|]. split; [exact K2|]. change byte with N in *. split; lia. }
  destruct (LE ds (up_msgs data) SU B) as (ks & -> & K2 & K3 & K4). rewrite !map_length in NE.
  rewrite relay_app, relay_data. rewrite A, app_length, repeat_length in K3.
  assert (SM : N.of_nat (length (up_msgs data)) < 65536).
  { assert (L1 : length (concat (up_msgs data)) = (7 * length (up_msgs data))%nat).
    { clear -B. induction B as [|m ms L F IH]; [reflexivity|]. cbn [concat length]. rewrite app_length. lia. }
    rewrite A, app_length, repeat_length in L1. destruct RD as [[_ Z] _ _ _ _ _ _ _]. lia. }
  destruct (dl_wrong size pre s tab silent nr hs hb he nm crc id c maxb dl [] [] [] ks (N.of_nat (length data)) (N.of_nat (length (up_msgs data))) p [0; 0; 0] RD RQ RC M DL) as (es & s' & E2 & P).
  { constructor. } { exact K2. } { cbn [length]. change byte with N in *. lia. } { change byte with N in *. lia. } { change byte with N in *. lia. }
  exists es, s'. split; [|exact P]. unfold dl_ops in E2. cbn [map concat] in E2. rewrite app_nil_r in E2. exact E2.
Qed.
Print Assumptions C99_lost_partial.
(** a backup that stops before its block end, for whatever reason: nothing happens, and the download stays open *)
Theorem C99_incomplete_partial : forall sizeA tabA silA nrA name l2 mb delay data ticks rest sA hu ha esA sA' oA
    size pre s tab silent nr hs hb he nm crc id c maxb dl p k,
  uploading sA tabA silA nrA hu ha -> N.of_nat (length data) < 65536 -> length name = 7%nat ->
  xl_run sizeA (upload_ops tabA silA nrA name l2 mb delay rest data ticks) sA = Some (esA, sA', oA) ->
  ready size pre s tab silent nr hs hb he -> request nm crc id -> requested s tab nr nm crc id c -> maxb < 65536 -> dl < 256 -> (room data <= size)%nat ->
  (k < length (payloads oA))%nat ->
  exists es s', xl_run size (start_ops tab silent nr nm crc id (accept nr maxb dl) ++ relay tab silent nr p (firstn k (payloads oA))) s =
     Some (es, s', [XCalled HStartReq hs c; start_msg nr maxb dl]) /\ Forall (fun e => e = ERR_OK) es /\ x_prog s' = InProgress.
Proof.
  intros sizeA tabA silA nrA name l2 mb delay data ticks rest sA hu ha esA sA' oA size pre s tab silent nr hs hb he nm crc id c maxb dl p k UP D NM RUN RD RQ RC M DL FIT K.
  destruct (up_ran _ _ _ _ _ _ _ _ _ _ _ _ _ _ _ _ _ UP D NM RUN) as (E & _). rewrite E, up_payloads in *. rewrite app_length, map_length in K. cbn [length] in K.
  destruct (copy_ok data) as (n & A & B & C).
  rewrite firstn_app, map_length. match goal with |- context [firstn (k - ?x)] => replace (k - x)%nat with 0%nat by (cbn [length] in K; change byte with N in *; lia) end. cbn [firstn]. rewrite app_nil_r, firstn_map, relay_data.
  assert (F : Forall (fun m => length m = 7%nat) (firstn k (up_msgs data))).
  { apply Forall_forall. intros m I. apply (proj1 (Forall_forall _ _) B). revert I. rewrite <- (firstn_skipn k (up_msgs data)) at 2. intro I. apply in_or_app. left. exact I. }
  assert (LF : (length (concat (firstn k (up_msgs data))) <= size)%nat).
  { assert (Q : (length (concat (up_msgs data)) <= size)%nat) by (rewrite A, app_length, repeat_length; lia).
    rewrite <- (firstn_skipn k (up_msgs data)), concat_app, app_length in Q. lia. }
  destruct (dl_run size pre s tab silent nr hs hb he nm crc id c maxb dl [] [] [] RD RQ RC M DL) as (es & s1 & E1 & FE & BT & C1 & P1 & H1); [constructor|].
  destruct RD as [[Z0 Z1] _ LI _ _ _ _ _].
  destruct (dl_data size tab silent nr [] s1 (firstn k (up_msgs data)) LI BT F Z1) as (s2 & E2 & R2 & O2 & B2 & (S1 & S2 & S3 & S4 & S5 & S6 & S7)); [cbn [length]; lia|].
  unfold dl_ops in E1. cbn [map concat] in E1. rewrite app_nil_r in E1. rewrite xl_run_app, E1. change byte with N in *. rewrite E2. eexists; eexists. split; [rewrite ?app_nil_r; reflexivity|].
  split; [|congruence]. apply Forall_app. split; [exact FE|]. apply Forall_forall. intros x I. apply repeat_spec in I. exact I.
Qed.
Print Assumptions C99_incomplete_partial.
(** Refuted for a backup in two blocks, the second not longer than the first: both stacks report success throughout, and the
    application finds seven zeros in place of the second block *)
Theorem C99_second_block_refuted : forall sizeA tabA silA nrA name l2 mb delay data1 ticks1 rest d data2 ticks2 sA hu ha esA1 sA1 oA1 esA2 sA2 oA2
    size pre s tab silent nr hs hb he nm crc id c maxb dl p1 p2 l1 o1 l2' o2,
  uploading sA tabA silA nrA hu ha -> N.of_nat (length data1) < 65536 - N.of_nat size -> length name = 7%nat -> (7 < length data1)%nat -> (length data2 <= length data1)%nat ->
  xl_run sizeA (upload_ops tabA silA nrA name l2 mb delay rest data1 ticks1) sA = Some (esA1, sA1, oA1) ->
  xl_run sizeA [next_op tabA silA nrA d data2 ticks2] sA1 = Some (esA2, sA2, oA2) ->
  ready size pre s tab silent nr hs hb he -> request nm crc id -> requested s tab nr nm crc id c -> maxb < 65536 -> dl < 256 ->
  buffer_only p1 -> on_list size p1 data1 = (l1, o1, ERR_OK) -> (room data1 <= size)%nat ->
  buffer_only p2 -> on_list size p2 (l1 ++ [0; 0; 0; 0; 0; 0; 0]) = (l2', o2, ERR_OK) -> (length l1 + 7 <= size)%nat ->
  exists es s', xl_run size (start_ops tab silent nr nm crc id (accept nr maxb dl) ++ relay tab silent nr p1 (payloads oA1) ++ relay tab silent nr p2 (payloads oA2)) s =
     Some (es, s', [XCalled HStartReq hs c; start_msg nr maxb dl] ++ [XCalled HBlockEnd hb c] ++ o1 ++ [ack_msg nr] ++ [XCalled HBlockEnd hb c] ++ o2 ++ [ack_msg nr])
   /\ Forall (fun e => e = ERR_OK) es.
Proof.
  intros sizeA tabA silA nrA name l2 mb delay data1 ticks1 rest d data2 ticks2 sA hu ha esA1 sA1 oA1 esA2 sA2 oA2
    size pre s tab silent nr hs hb he nm crc id c maxb dl p1 p2 l1 o1 l2' o2 UP D NM L7 L12 RUN1 RUN2 RD RQ RC M DL BO1 OL1 FIT1 BO2 OL2 FIT2.
  assert (D' : N.of_nat (length data1) < 65536) by (change byte with N in *; lia).
  destruct (up_ran _ _ _ _ _ _ _ _ _ _ _ _ _ _ _ _ _ UP D' NM RUN1) as (-> & XB & CN & XH).
  destruct UP as [[N1 N2] LI ID HU HA]. rewrite <- XH in HA.
  assert (XL : x_bytes sA1 < 65536) by (rewrite XB; exact D').
  assert (XE : N.of_nat (length data2) <= x_bytes sA1) by (rewrite XB; change byte with N in *; lia).
  rewrite (up_next _ _ _ _ _ _ _ _ _ _ _ _ _ N1 N2 LI HA CN XL XE RUN2). cbn [payloads up_end].
  destruct (copy_ok data1) as (n & A & B & C). rewrite (relay_up _ _ _ _ _ _ n).
  assert (DE : delivered size nr hb c [] [copy data1 n p1] l1 (XCalled HBlockEnd hb c :: o1 ++ [ack_msg nr])).
  { apply (DeCons _ _ _ _ [] (copy data1 n p1) l1 o1 [] l1 []); [split; [exact B|exact A]|exact BO1|cbn [copy b_bytes b_fill length]; rewrite repeat_length; lia|exact OL1|constructor]. }
  destruct (dl_bytes size pre s tab silent nr hs hb he nm crc id c maxb dl [copy data1 n p1] l1 _ [[0; 0; 0; 0; 0; 0; 0]] (x_bytes sA1) p2 l2' o2 RD RQ RC M DL DE) as (es & s' & E & F).
  { repeat constructor. } { exact FIT2. } { cbn [concat length app]. rewrite XB. change byte with N in *. lia. } { rewrite XB. exact D. } { exact BO2. } { exact OL2. }
  exists es, s'. split; [|exact F]. unfold dl_ops in E. cbn [map concat] in E. rewrite app_nil_r, <- app_assoc in E.
  match goal with |- xl_run _ ?a _ = _ => match type of E with xl_run _ ?b _ = _ => change a with b end end. rewrite E. cbn [app]. rewrite <- app_assoc. reflexivity.
Qed.
Print Assumptions C99_second_block_refuted.

(** module 10 uploads nine bytes; they are restored by module 10 of another stack with a buffer of 32 bytes; a second block of
    three bytes is not *)
Definition stA99 : xst := st41 32.
Lemma up99 : uploading stA99 tab41 sil41 10 5 6.
Proof. constructor; [split; [discriminate|reflexivity]|exact lis41|vm_compute; reflexivity|vm_compute; reflexivity|vm_compute; reflexivity]. Qed.
Definition data99 : list byte := [1; 2; 3; 4; 5; 6; 7; 8; 9].
Definition ops99 : list xlop := upload_ops tab41 sil41 10 [1; 2; 3; 4; 5; 6; 7] 8 16 2 [0; 0; 0] data99 [0; 1; 2; 3; 3; 4; 5; 6; 6].
Definition out99 : list xobs := match xl_run 32 (ops99 ++ [next_op tab41 sil41 10 [0; 0; 0; 0; 0; 0; 0] [10; 11; 12] [10; 20; 20]]) stA99 with Some (_, _, o) => o | None => [] end.
Example C99_case : exists esA sA' oA, xl_run 32 ops99 stA99 = Some (esA, sA', oA) /\ room data99 = 14%nat /\
  payloads oA = [[0x15; 1; 2; 3; 4; 5; 6; 7]; [0x15; 8; 9; 0; 0; 0; 0; 0]; [0x16; 0; 9; 0; 2; 0; 0; 0]] /\
  fewer [[0x15; 8; 9; 0; 0; 0; 0; 0]] (removelast (payloads oA)) /\
  payloads out99 = payloads oA ++ [[0x15; 0; 0; 0; 0; 0; 0; 0]; [0x16; 0; 9; 0; 1; 0; 0; 0]].
Proof.
  do 3 eexists. split; [vm_compute; reflexivity|]. split; [reflexivity|]. split; [reflexivity|]. split; [|vm_compute; reflexivity].
  split; [cbn; apply SubLose, SubKeep, SubNil|discriminate].
Qed.
Example C99_applied : exists es s', xl_run 32 (start_ops tab41 sil41 10 name42 [0x12; 0x34] [0; 1; 2; 3] (accept 10 8 5) ++
     relay tab41 sil41 10 (reader 9) [[0x15; 1; 2; 3; 4; 5; 6; 7]; [0x15; 8; 9; 0; 0; 0; 0; 0]; [0x16; 0; 9; 0; 2; 0; 0; 0]] ++
     relay tab41 sil41 10 (reader 3) [[0x15; 0; 0; 0; 0; 0; 0; 0]; [0x16; 0; 9; 0; 1; 0; 0; 0]]) (st41 32) =
   Some (es, s', [XCalled HStartReq 1 comp42; start_msg 10 8 5; XCalled HBlockEnd 2 comp42] ++ map read_byte data99 ++ [ack_msg 10; XCalled HBlockEnd 2 comp42] ++
     map read_byte [0; 0; 0] ++ [ack_msg 10]) /\ Forall (fun e => e = ERR_OK) es.
Proof. do 2 eexists. split; [vm_compute; reflexivity|repeat constructor]. Qed.
