(** Proofs about names, blocks, running downloads and uploads. *)
From Verif Require Import Words WordsFacts Bits Ring ErrModel ErrSpec ErrProofs NodeModel LookModel LookSpec LookProofs XBufModel XBufSpec XBufProofs AsyncSpec AsyncProofs XloadModel XloadSpec XloadProofs.

Ltac xstep := repeat (rewrite ?xbind_ret, ?xbind_get, ?xbind_mod).

(** dispatch *)
Lemma rx_listening size tab silent nr d p s : listening tab silent nr -> exists pos, is_first (of_nr nr) tab pos /\
  async_rx size tab silent nr d p s = (
    let c := nth 0 d 0 in
    if c =? 16 then version_short size nr d p
    else if c =? 17 then version_long1 d
    else if c =? 18 then version_long2 size nr d p
    else if c =? 19 then start_request1 d
    else if c =? 20 then start_request2 size (m_type (nth pos tab modl0)) nr d p
    else if c =? 21 then dload_data size nr d
    else if c =? 22 then block_end size nr d p
    else if c =? 23 then dload_end size nr p
    else if c =? 24 then xret ERR_OK
    else if c =? 25 then xret ERR_OK
    else if c =? 26 then ul_block_ackn size p
    else if c =? 27 then xmod (fun s => set_prog s Idle) ;> xret ERR_OK
    else if c =? 28 then xmod (fun s => set_prog s Idle) ;> xret ERR_OK
    else if c =? 80 then info_short size nr d p
    else if c =? 29 then ul_request1 nr d
    else if c =? 30 then ul_request2 size nr d p
    else xret E_UNKNOWN_COMMAND) s.
Proof.
  intros (pos & F & A). destruct (by_nr tab silent nr) as [(q & FQ & E)|[NO _]].
  - assert (pos = q) as <- by (eapply first_unique; eauto). exists pos. split; [exact F|]. unfold async_rx. rewrite E.
    change (1 =? 0) with false. cbv iota. destruct (nth pos silent 0 =? SILENT) eqn:ES; [apply N.eqb_eq in ES; congruence|]. reflexivity.
  - exfalso. destruct F as (L & F & _). exact (NO pos L F).
Qed.
Lemma rx_deaf size tab silent nr d p s : ~ listening tab silent nr -> async_rx size tab silent nr d p s = Some (ERR_OK, s, []).
Proof.
  intro NL. unfold async_rx. pose proof (listening_iff tab silent nr) as LI. destruct (nr_valid tab silent nr) as [[pos st] found] eqn:E. cbn [fst snd] in LI.
  destruct (found =? 0) eqn:EF; [reflexivity|]. destruct (st =? SILENT) eqn:ES; [reflexivity|].
  exfalso. apply NL, LI. apply N.eqb_neq in EF, ES. split; [|exact ES].
  destruct (by_nr tab silent nr) as [(q & FQ & E2)|[NO E2]]; rewrite E in E2; injection E2 as _ _ ->; [reflexivity|congruence].
Qed.

(** ** C41 *)
Lemma sixbit_bytes a b c d : a < 64 -> b < 64 -> c < 64 -> d < 64 ->
  bytes24 (a * 64 ^ 3 + b * 64 ^ 2 + c * 64 + d) = [4 * a + b / 16; 16 * (b mod 16) + c / 4; 64 * (c mod 4) + d].
Proof. intros. unfold bytes24. change (64 ^ 3) with 262144. change (64 ^ 2) with 4096. f_equal; [lia|]. f_equal; [lia|]. f_equal. lia. Qed.
Lemma land_ones_small x k : N.land x (N.ones k) = x mod 2 ^ k. Proof. apply N.land_ones. Qed.
Lemma unpack_hi x y : x < 64 -> y < 4 -> u8 (32 + N.shiftr (4 * x + y) 2) = 32 + x.
Proof. intros. rewrite N.shiftr_div_pow2. change (2 ^ 2) with 4. unfold u8. lia. Qed.
Lemma shr_mask x k m : x < 256 -> k <= 8 -> m = N.shiftl (N.ones (8 - k)) k -> N.shiftr (N.land x m) k = x / 2 ^ k.
Proof.
  intros H K ->. rewrite N.shiftr_land. rewrite N.shiftr_shiftl_l by lia. rewrite N.sub_diag, N.shiftl_0_r. rewrite N.land_ones, N.shiftr_div_pow2.
  apply N.mod_small. apply N.div_lt_upper_bound; [apply N.pow_nonzero; lia|]. rewrite <- N.pow_add_r. replace (k + (8 - k)) with 8 by lia. change (2 ^ 8) with 256. exact H.
Qed.
Lemma name6_pack i0 i1 name : length name = 8%nat -> Forall name_char name -> name6 (i0 :: i1 :: pack6 name) = name ++ [0].
Proof.
  intros L F. do 8 (destruct name as [|? name]; [discriminate L|]). destruct name; [|discriminate L].
  repeat match goal with H : Forall _ (_ :: _) |- _ => inversion H; clear H; subst end. unfold name_char in *.
  unfold pack6, pack4. rewrite !sixbit_bytes by lia. unfold name6. cbn [nth app].
  assert (S3 : forall x, N.land x 3 = x mod 4) by (intro; change 3 with (N.ones 2); rewrite N.land_ones; reflexivity).
  assert (S15 : forall x, N.land x 15 = x mod 16) by (intro; change 15 with (N.ones 4); rewrite N.land_ones; reflexivity).
  assert (S63 : forall x, N.land x 63 = x mod 64) by (intro; change 63 with (N.ones 6); rewrite N.land_ones; reflexivity).
  rewrite !S3, !S15, !S63.
  rewrite !(shr_mask _ 4 240) by (try reflexivity; lia). rewrite !(shr_mask _ 6 192) by (try reflexivity; lia). rewrite !(shr_mask _ 2 252) by (try reflexivity; lia).
  rewrite !N.shiftr_div_pow2, !N.shiftl_mul_pow2. change (2 ^ 2) with 4. change (2 ^ 4) with 16. change (2 ^ 6) with 64. unfold u8.
  repeat (f_equal; [lia|]). f_equal. lia.
Qed.

Lemma call_first size k t p s a s' o h : nth (hidx k) (x_hand s) None = Some h -> call_handler size k t p s = Some (a, s', o) -> called k h (get_comp t s) o.
Proof.
  intros HH H. unfold call_handler in H. rewrite xbind_get, HH, xbind_observe in H. destruct (hrun size t p s) as [[[b s2] os]|]; [|discriminate].
  injection H as <- <- <-. eexists. reflexivity.
Qed.
Lemma called_app k h c a b : called k h c a -> called k h c (a ++ b).
Proof. intros [r ->]. eexists. reflexivity. Qed.

Lemma version_pre_call size nr p s a s' o h : nth (hidx HVersion) (x_hand s) None = Some h -> version_pre size nr p s = Some (a, s', o) ->
  called HVersion h (set_cnr (x_vers s) nr) o.
Proof.
  intros HH H. unfold version_pre in H. rewrite xbind_get, HH, xbind_mod in H. apply xbind_inv in H as (r & s1 & o1 & o2 & E & _ & ->).
  apply called_app. eapply call_first in E; [|exact HH]. exact E.
Qed.
Lemma short_name size s tab silent nr idx name p h e s' o : listening tab silent nr -> length name = 8%nat -> Forall name_char name ->
  nth (hidx HVersion) (x_hand s) None = Some h ->
  async_rx size tab silent nr (0x10 :: idx :: pack6 name) p s = Some (e, s', o) ->
  called HVersion h (Comp nr (name ++ [0]) (c_crc (x_vers s)) (c_id (x_vers s)) idx (c_type (x_vers s))) o.
Proof.
  intros LI L F HH H. destruct (rx_listening size tab silent nr (0x10 :: idx :: pack6 name) p s LI) as (pos & _ & E). rewrite E in H. clear E.
  cbn [nth] in H. change (16 =? 16) with true in H. cbv zeta iota in H. unfold version_short in H. rewrite xbind_mod in H.
  apply (version_pre_call _ _ _ _ _ _ _ h) in H; [|exact HH]. cbn [x_vers set_vers set_name set_index set_cnr c_nr c_name c_crc c_id c_index c_type nth] in H.
  rewrite name6_pack in H by assumption. exact H.
Qed.
Lemma info_name size s tab silent nr idx name p h e s' o : listening tab silent nr -> length name = 8%nat -> Forall name_char name ->
  nth (hidx HInfo) (x_hand s) None = Some h ->
  async_rx size tab silent nr (0x50 :: idx :: pack6 name) p s = Some (e, s', o) ->
  called HInfo h (Comp nr (name ++ [0]) (c_crc (x_comp s)) (c_id (x_comp s)) idx (c_type (x_comp s))) o.
Proof.
  intros LI L F HH H. destruct (rx_listening size tab silent nr (0x50 :: idx :: pack6 name) p s LI) as (pos & _ & E). rewrite E in H. clear E.
  cbn [nth] in H. repeat match goal with H : context [80 =? ?n] |- _ => let b := eval vm_compute in (80 =? n) in change (80 =? n) with b in H end.
  cbv zeta iota in H. unfold info_short in H. rewrite xbind_mod, xbind_get in H. cbn [x_hand set_comp] in H. rewrite HH, xbind_mod in H.
  apply xbind_inv in H as (r & s1 & o1 & o2 & E & _ & ->). apply called_app. apply (call_first _ _ _ _ _ _ _ _ h) in E; [|exact HH].
  cbn [get_comp x_comp set_comp set_name set_index set_cnr c_nr c_name c_crc c_id c_index c_type nth] in E. rewrite name6_pack in E by assumption. exact E.
Qed.
Lemma long_name size s t1 z1 t2 z2 nr idx i2 name rest p1 p2 h es s' o : listening t1 z1 nr -> listening t2 z2 nr -> length name = 8%nat ->
  nth (hidx HVersion) (x_hand s) None = Some h ->
  xl_run size [LRx t1 z1 nr (0x11 :: idx :: firstn 6 name) p1; LRx t2 z2 nr (0x12 :: i2 :: skipn 6 name ++ rest) p2] s = Some (es, s', o) ->
  called HVersion h (Comp nr (name ++ [0]) (c_crc (x_vers s)) (c_id (x_vers s)) idx (c_type (x_vers s))) o.
Proof.
  intros L1 L2 L HH H. cbn [xl_run xl_step] in H.
  apply xbind_inv in H as (r & s1 & o1 & o2 & E & H & ->). apply xbind_inv in H as (r2 & s2 & o3 & o4 & E2 & H & ->).
  apply xbind_inv in E2 as (r3 & s3 & o5 & o6 & E2 & _ & ->). clear H.
  destruct (rx_listening size t1 z1 nr (0x11 :: idx :: firstn 6 name) p1 s L1) as (q & _ & X). rewrite X in E. clear X.
  cbn [nth] in E. repeat match goal with H : context [17 =? ?n] |- _ => let b := eval vm_compute in (17 =? n) in change (17 =? n) with b in H end.
  cbv zeta iota in E. unfold version_long1 in E. rewrite xbind_mod in E. injection E as <- <- <-. cbn [app].
  apply called_app. apply called_app. 
  match type of E2 with async_rx _ _ _ _ ?d _ ?st = _ => destruct (rx_listening size t2 z2 nr d p2 st L2) as (q2 & _ & X); rewrite X in E2; clear X end.
  cbn [nth] in E2. repeat match goal with H : context [18 =? ?n] |- _ => let b := eval vm_compute in (18 =? n) in change (18 =? n) with b in H end.
  cbv zeta iota in E2. unfold version_long2 in E2. rewrite xbind_mod in E2. apply (version_pre_call _ _ _ _ _ _ _ h) in E2; [|exact HH].
  cbn [x_vers set_vers set_name set_index set_cnr c_nr c_name c_crc c_id c_index c_type nth skipn] in E2.
  do 8 (destruct name as [|? name]; [discriminate L|]). destruct name; [|discriminate L]. exact E2.
Qed.
Lemma start_name size s t1 z1 t2 z2 nr name crc id p1 p2 h es s' o : listening t1 z1 nr -> listening t2 z2 nr -> length name = 8%nat ->
  length crc = 2%nat -> length id = 4%nat -> bytes_ok crc -> bytes_ok id ->
  nth (hidx HStartReq) (x_hand s) None = Some h -> x_prog s = Idle ->
  xl_run size [LRx t1 z1 nr (0x13 :: firstn 7 name) p1; LRx t2 z2 nr (0x14 :: skipn 7 name ++ crc ++ id) p2] s = Some (es, s', o) ->
  exists type m q, is_first (of_nr nr) t2 q /\ nth_error t2 q = Some m /\ type = m_type m /\
  called HStartReq h (Comp nr (name ++ [0]) (be crc) (be id) (c_index (x_comp s)) type) o.
Proof.
  intros L1 L2 L LC LD BC BD HH HP H. cbn [xl_run xl_step] in H.
  apply xbind_inv in H as (r & s1 & o1 & o2 & E & H & ->). apply xbind_inv in H as (r2 & s2 & o3 & o4 & E2 & H & ->).
  apply xbind_inv in E2 as (r3 & s3 & o5 & o6 & E2 & _ & ->). clear H.
  destruct (rx_listening size t1 z1 nr (0x13 :: firstn 7 name) p1 s L1) as (q & _ & X). rewrite X in E. clear X.
  cbn [nth] in E. repeat match goal with H : context [19 =? ?n] |- _ => let b := eval vm_compute in (19 =? n) in change (19 =? n) with b in H end.
  cbv zeta iota in E. unfold start_request1 in E. rewrite xbind_get, HP, xbind_mod in E. injection E as <- <- <-. cbn [app].
  match type of E2 with async_rx _ _ _ _ ?d _ ?st = _ => destruct (rx_listening size t2 z2 nr d p2 st L2) as (q2 & F2 & X); rewrite X in E2; clear X end.
  pose proof F2 as (LQ & _ & _). destruct (nth_error_lt_some _ t2 q2 LQ) as [m M].
  exists (m_type m), m, q2. split; [exact F2|]. split; [exact M|]. split; [reflexivity|].
  apply called_app. apply called_app.
  cbn [nth] in E2. repeat match goal with H : context [20 =? ?n] |- _ => let b := eval vm_compute in (20 =? n) in change (20 =? n) with b in H end.
  cbv zeta iota in E2. unfold start_request2 in E2. rewrite xbind_get in E2. cbn [x_prog set_comp] in E2. rewrite HP in E2.
  apply xbind_inv in E2 as (rc & s4 & o7 & o8 & E2 & _ & ->). apply called_app. rewrite !xbind_mod in E2.
  apply xbind_inv in E2 as (r5 & s5 & o9 & o10 & E2 & _ & ->). apply called_app. apply (call_first _ _ _ _ _ _ _ _ h) in E2; [|exact HH].
  rewrite (nth_error_nth _ _ modl0 M) in E2.
  do 8 (destruct name as [|? name]; [discriminate L|]). destruct name; [|discriminate L].
  do 2 (destruct crc as [|? crc]; [discriminate LC|]). destruct crc; [|discriminate LC].
  do 4 (destruct id as [|? id]; [discriminate LD|]). destruct id; [|discriminate LD].
  unfold bytes_ok, is_byte in *. repeat match goal with H : Forall _ (_ :: _) |- _ => inversion H; clear H; subst end.
  cbn [get_comp x_comp set_comp set_prog set_name set_index set_cnr set_crcid set_ctype c_nr c_name c_crc c_id c_index c_type nth skipn firstn app] in E2.
  unfold be. cbn [fold_left]. rewrite !N.shiftl_mul_pow2 in E2. change (2 ^ 8) with 256 in E2. change (2 ^ 16) with 65536 in E2. change (2 ^ 24) with 16777216 in E2.
  unfold u16, u32 in E2. rewrite !N.mod_small in E2 by lia.
  unfold set_ctype, set_cnr, set_crcid, set_name in E2. cbn [c_nr c_name c_crc c_id c_index c_type firstn app] in E2.
  match type of E2 with called _ _ (Comp _ _ ?a ?b _ _) _ => match goal with |- called _ _ (Comp _ _ ?a' ?b' _ _) _ => replace a' with a by lia; replace b' with b by lia end end.
  exact E2.
Qed.

(** ** C42 *)
Lemma two_back x : x < 65536 -> u16 (N.shiftl (x / 256) 8 + x mod 256) = x.
Proof. intro H. rewrite N.shiftl_mul_pow2. change (2 ^ 8) with 256. unfold u16. lia. Qed.
Lemma send_eq {B} nr d (f : N -> X B) s : 1 <= nr -> nr < 256 -> xbind (xsend nr d) f s =
  match f ERR_OK s with Some (b, s2, os) => Some (b, s2, XFrame (ctl_id nr) d :: os) | None => None end.
Proof. intros A B0. unfold xsend. rewrite ctl_ident by assumption. unfold xbind, xobserve, xret. destruct (f ERR_OK s) as [[[b s2] os]|]; reflexivity. Qed.
Lemma send_eq1 nr d s : 1 <= nr -> nr < 256 -> xsend nr d s = Some (ERR_OK, s, [XFrame (ctl_id nr) d]).
Proof. intros A B0. unfold xsend. rewrite ctl_ident by assumption. reflexivity. Qed.

Ltac code H c := repeat match type of H with context [c =? ?n] => let b := eval vm_compute in (c =? n) in change (c =? n) with b in H end; cbv zeta iota in H.
Ltac codeg c := repeat match goal with |- context [c =? ?n] => let b := eval vm_compute in (c =? n) in change (c =? n) with b end; cbv zeta iota.

Lemma rx_data size tab silent nr m p s l : listening tab silent nr -> length m = 7%nat -> xrel size l (x_buf s) -> (length l + 7 <= size)%nat ->
  exists b, xrel size (l ++ m) b /\ async_rx size tab silent nr (0x15 :: m) p s = Some (ERR_OK, set_cnts (set_xbuf s b) (u16 (x_objs s + 1)) (u16 (x_bytes s + 7)), []).
Proof.
  intros LI L R Z. destruct (rx_listening size tab silent nr (0x15 :: m) p s LI) as (pos & _ & ->). cbn [nth]. codeg 21.
  unfold dload_data. rewrite xbind_get. cbn [skipn]. rewrite firstn_all2 by lia.
  destruct (xaddloop_rel size m l (x_buf s) R) as (b & E & RB); [lia|]. exists b. split; [exact RB|]. rewrite E. rewrite xbind_mod.
  change (ERR_OK =? ERR_OK) with true. cbv iota. rewrite xbind_mod. reflexivity.
Qed.
Lemma set_cnts2 s b o n b' o' n' : set_cnts (set_xbuf (set_cnts (set_xbuf s b) o n) b') o' n' = set_cnts (set_xbuf s b') o' n'.
Proof. reflexivity. Qed.
Lemma rx_datas size tab silent nr : listening tab silent nr -> forall ms s l, Forall (fun m => length m = 7%nat) ms -> xrel size l (x_buf s) ->
  (length l + length (concat ms) <= size)%nat ->
  exists b, xrel size (l ++ concat ms) b /\
    xl_run size (map (fun m => LRx tab silent nr (0x15 :: m) nothing) ms) s =
      Some (repeat ERR_OK (length ms),
            match ms with [] => set_xbuf s b | _ => set_cnts (set_xbuf s b) (u16 (x_objs s + N.of_nat (length ms))) (u16 (x_bytes s + 7 * N.of_nat (length ms))) end, []).
Proof.
  intros LI ms. induction ms as [|m r IH]; intros s l F R Z; cbn [concat map xl_run] in *.
  - exists (x_buf s). rewrite app_nil_r. split; [exact R|]. destruct s; reflexivity.
  - inversion F as [|? ? L F']; subst. rewrite app_length in Z.
    destruct (rx_data size tab silent nr m nothing s l LI L R) as (b1 & R1 & E1); [lia|].
    destruct (IH (set_cnts (set_xbuf s b1) (u16 (x_objs s + 1)) (u16 (x_bytes s + 7))) (l ++ m) F') as (b & RB & E); [exact R1|rewrite app_length; lia|].
    exists b. rewrite <- app_assoc in RB. split; [exact RB|]. cbn [xl_step]. rewrite (xbind_some _ _ _ _ _ _ E1). rewrite (xbind_some _ _ _ _ _ _ E). cbn [app].
    unfold xret. cbn [app repeat length]. f_equal. f_equal. f_equal.
    rewrite Nat2N.inj_succ. destruct r as [|m2 r2].
    + cbn [length]. change (N.succ (N.of_nat 0)) with 1. reflexivity.
    + cbn [x_objs x_bytes set_cnts set_xbuf]. rewrite set_cnts2. cbn [length]. unfold u16. f_equal; lia.
Qed.
Lemma bo_run size t p : buffer_only p -> forall s l l1 o rc, xrel size l (x_buf s) -> on_list size p l = (l1, o, rc) ->
  exists b e z, hrun size t p s = Some ((rc, e, z), set_xbuf s b, o) /\ xrel size l1 b.
Proof.
  induction 1 as [rc e z|op k NR B IH]; intros s l l1 o rc0 R E; cbn [on_list hrun] in *.
  - injection E as <- <- <-. exists (x_buf s), e, z. split; [destruct s; reflexivity|exact R].
  - destruct (list_step size l op) as [l' r] eqn:ES. destruct (on_list size (k (AUse r)) l') as [[l2 os] rc1] eqn:EL. injection E as <- <- <-.
    destruct (step_rel size l (x_buf s) op R NR) as (b1 & E1 & R1). rewrite ES in E1, R1. cbn [fst snd] in *.
    destruct (IH r (set_xbuf s b1) l' l2 os rc1 R1 EL) as (b2 & e & z & E2 & R2). exists b2, e, z. split; [|exact R2].
    cbn [acall_run]. unfold xbind at 1. rewrite xbind_get, E1, xbind_mod, xbind_observe. unfold xret. rewrite E2. reflexivity.
Qed.
(** the state between two blocks *)
Record between (size : nat) (l : list byte) (s : xst) : Prop := {
  bt_buf : xrel size l (x_buf s); bt_objs : x_objs s = 0; bt_bytes : x_bytes s = 0
}.
Definition same_rest (s s' : xst) : Prop :=
  x_prog s' = x_prog s /\ x_comp s' = x_comp s /\ x_vers s' = x_vers s /\ x_own s' = x_own s /\ x_hand s' = x_hand s /\ x_maxb s' = x_maxb s /\ x_delay s' = x_delay s.
Lemma rx_end size tab silent nr bytes fillers ms p h s l l1 o : N.of_nat size < 65536 -> 1 <= nr -> nr < 256 -> listening tab silent nr ->
  nth (hidx HBlockEnd) (x_hand s) None = Some h ->
  xrel size (l ++ bytes ++ fillers) (x_buf s) -> x_objs s = N.of_nat (length (A := list byte) ms) -> x_bytes s = N.of_nat (length (bytes ++ fillers)) ->
  (length ms <= size)%nat ->
  buffer_only p -> on_list size p (l ++ bytes) = (l1, o, ERR_OK) ->
  exists s', async_rx size tab silent nr (blk_end_msg (Blk bytes fillers ms p)) p s = Some (ERR_OK, s', XCalled HBlockEnd h (x_comp s) :: o ++ [ack_msg nr])
    /\ between size l1 s' /\ same_rest s s'.
Proof.
  intros SZ N1 N2 LI HH R CO CB LM BO OL. pose proof (xr_le _ _ _ R) as LE. rewrite !app_length in LE. rewrite app_length in CB.
  unfold blk_end_msg. cbn [b_bytes b_msgs]. match goal with |- context [async_rx _ _ _ _ ?d _ _] => destruct (rx_listening size tab silent nr d p s LI) as (pos & _ & ->) end.
  cbn [nth]. codeg 22. unfold block_end, two. cbn [app nth]. rewrite !two_back by lia. rewrite xbind_get. rewrite <- CO, N.eqb_refl. rewrite xbind_mod, xbind_get.
  cbn [x_bend set_bend]. set (e := u16 (x_bytes s + 65536 - N.of_nat (length bytes))).
  assert (EV : e = N.of_nat (length fillers)) by (unfold e, u16; rewrite CB; rewrite Nat2N.inj_add; lia).
  assert (exists s2, (if 0 <? e then xmod (fun s => set_xbuf s (fst (xb_remove size (x_buf s) (N.to_nat (x_bend s))))) ;> xmod (fun s => set_bend s 0) else xret tt) (set_bend s e) = Some (tt, s2, [])
     /\ xrel size (l ++ bytes) (x_buf s2) /\ same_rest s s2) as (s2 & E2 & R2 & S2).
  { destruct (0 <? e) eqn:E0.
    - eexists. split; [rewrite xbind_mod; reflexivity|]. cbn [x_buf set_bend set_xbuf x_bend]. split; [|repeat split].
      rewrite EV, Nat2N.id. destruct (xremove_rel size _ (x_buf s) (length fillers) R) as [_ RR]. rewrite !app_length in RR.
      destruct (length fillers <=? _)%nat eqn:EL; [|apply Nat.leb_gt in EL; lia].
      replace (length l + (length bytes + length fillers) - length fillers)%nat with (length (l ++ bytes) + 0)%nat in RR by (rewrite app_length; lia).
      rewrite app_assoc, firstn_app_2, firstn_O, app_nil_r in RR. exact RR.
    - eexists. split; [reflexivity|]. cbn [x_buf set_bend]. split; [|repeat split]. apply N.ltb_ge in E0. destruct fillers; [|cbn [length] in EV; lia]. rewrite !app_nil_r in R. exact R. }
  rewrite (xbind_some _ _ _ _ _ _ E2). cbn [app]. destruct S2 as (S21 & S22 & S23 & S24 & S25 & S26 & S27).
  unfold call_handler. unfold xbind at 1. rewrite xbind_get, S25, HH, xbind_observe. destruct (bo_run size TComp p BO s2 _ _ _ _ R2 OL) as (b & e3 & z & E3 & R3).
  rewrite E3. cbn [fst]. change (ERR_OK =? ERR_OK) with true. cbv iota. unfold block_ackn. rewrite send_eq by assumption. rewrite xbind_mod. unfold xret.
  eexists. split; [|split].
  - cbn [app]. rewrite app_nil_r || idtac. cbn [get_comp]. rewrite S22. unfold ack_msg. reflexivity.
  - constructor; cbn [x_buf set_cnts set_xbuf x_objs x_bytes]; auto.
  - repeat split; assumption.
Qed.
Lemma blocks_run size nr h c tab silent : N.of_nat size < 65536 -> 1 <= nr -> nr < 256 -> listening tab silent nr ->
  forall l blks l' os, delivered size nr h c l blks l' os -> forall s, nth (hidx HBlockEnd) (x_hand s) None = Some h -> x_comp s = c -> between size l s ->
  exists s', xl_run size (concat (map (blk_ops tab silent nr) blks)) s = Some (repeat ERR_OK (length (concat (map (blk_ops tab silent nr) blks))), s', os)
   /\ between size l' s' /\ same_rest s s'.
Proof.
  intros SZ N1 N2 LI l blks l' os D. induction D as [l|l b l1 o r l2 os (B1 & B2) BO FIT OL D IH]; intros s HH HC BT.
  - exists s. split; [reflexivity|]. split; [exact BT|repeat split].
  - destruct BT as [RB CO CB].
    assert (LC : length (concat (b_msgs b)) = (7 * length (b_msgs b))%nat).
    { clear -B1. induction B1 as [|m ms L F IH]; [reflexivity|]. cbn [concat length]. rewrite app_length. lia. }
    assert (LC2 : (7 * length (b_msgs b) = length (b_bytes b) + length (b_fill b))%nat) by (rewrite <- LC, B2, app_length; reflexivity).
    destruct (rx_datas size tab silent nr LI (b_msgs b) s l B1 RB) as (b1 & R1 & E1); [rewrite B2, app_length; lia|]. rewrite B2 in R1.
    set (s1 := match b_msgs b with [] => set_xbuf s b1 | _ => _ end) in E1.
    assert (H1 : xrel size (l ++ b_bytes b ++ b_fill b) (x_buf s1) /\ x_objs s1 = N.of_nat (length (b_msgs b)) /\ x_bytes s1 = N.of_nat (length (b_bytes b ++ b_fill b)) /\ same_rest s s1).
    { unfold s1. rewrite <- B2, LC. destruct (b_msgs b) as [|m ms] eqn:EM.
      - cbn [x_buf set_xbuf x_objs x_bytes length]. rewrite CO, CB. rewrite B2. split; [exact R1|]. split; [reflexivity|]. split; [reflexivity|repeat split].
      - rewrite B2. cbn [x_buf set_xbuf set_cnts x_objs x_bytes]. rewrite CO, CB. unfold u16. split; [exact R1|]. split; [lia|]. split; [lia|]. repeat split. }
    clearbody s1. destruct H1 as (R & O1 & C1 & S1). pose proof S1 as (P1 & P2 & P3 & P4 & P5 & P6 & P7).
    destruct (rx_end size tab silent nr (b_bytes b) (b_fill b) (b_msgs b) (b_hand b) h s1 l l1 o SZ N1 N2 LI) as (s2 & E2 & BT2 & S2); auto; [congruence|lia|].
    pose proof S2 as (Q1 & Q2 & Q3 & Q4 & Q5 & Q6 & Q7).
    destruct (IH s2) as (s3 & E3 & BT3 & S3); [congruence|congruence|exact BT2|]. exists s3. split; [|split; [exact BT3|]].
    + cbn [map concat]. unfold blk_ops at 1. rewrite <- app_assoc.
      rewrite xl_run_app, E1. cbn [app xl_run xl_step]. destruct b as [bb bf bm bh]. cbn [b_bytes b_fill b_msgs b_hand] in *.
      rewrite (xbind_some _ _ _ _ _ _ E2), (xbind_some _ _ _ _ _ _ E3). unfold xret. unfold blk_ops at 2. cbn [b_msgs b_hand]. rewrite !app_length, map_length, !repeat_app. cbn [length repeat app].
      rewrite <- !app_assoc. cbn [app]. rewrite HC in P2. rewrite P2. cbn [app]. rewrite app_nil_r. reflexivity.
    + destruct S3 as (T1 & T2 & T3 & T4 & T5 & T6 & T7). repeat split; congruence.
Qed.

Lemma be32_eq x : x < 4294967296 -> be32 x = [x / 16777216; x / 65536 mod 256; x / 256 mod 256; x mod 256].
Proof.
  intro H. unfold be32. change 4278190080 with (255 * 2 ^ 24). change 16711680 with (255 * 2 ^ 16). change 65280 with (255 * 2 ^ 8).
  rewrite !land_shifted, !land_255, !shiftr_div. change (2 ^ 24) with 16777216. change (2 ^ 16) with 65536. change (2 ^ 8) with 256.
  rewrite !N.div_mul by lia. unfold u8. f_equal; [lia|]. f_equal; [lia|]. f_equal; [lia|]. f_equal. lia.
Qed.
Lemma term_eq nr err s : 1 <= nr -> nr < 256 -> err < 65536 ->
  termination nr err s = Some (ERR_OK, set_prog (set_comp s (clear_name (x_comp s))) Idle, [term_msg nr err]).
Proof.
  intros A B D. unfold termination. rewrite xbind_mod. cbv zeta. rewrite send_eq by assumption. rewrite xbind_mod. unfold xret. unfold term_msg.
  destruct (code_facts err D) as (-> & _ & -> & _). rewrite be32_eq by lia. cbn [app].
  change (N.shiftr MSG_GROUP_CAN 24) with (7 * 2 ^ 4). rewrite lor_add by (change (2 ^ 4) with 16; lia). change (7 * 2 ^ 4) with 112.
  match goal with |- Some (_, _, [XFrame _ (_ :: ?a :: ?b :: ?c :: ?d :: 0 :: 0 :: ?e :: nil)]) = Some (_, _, [XFrame _ (_ :: ?a' :: ?b' :: ?c' :: ?d' :: _ :: _ :: ?e' :: nil)]) =>
    replace a with a' by lia; replace b with b' by lia; replace c with c' by lia; replace d with d' by lia; replace e with e' by (unfold u8; lia) end.
  reflexivity.
Qed.

Lemma reg_keep k h s e s' o : register k h s = Some (e, s', o) -> x_buf s' = x_buf s.
Proof. unfold register. rewrite xbind_get. destruct (nth _ _ _); [|rewrite xbind_mod]; intro H; injection H as <- <- <-; reflexivity. Qed.
Lemma run_len size : forall ops s es s' obs, xl_run size ops s = Some (es, s', obs) -> length (xb_data (x_buf s')) = length (xb_data (x_buf s)).
Proof.
  induction ops as [|o r IH]; intros s es s' obs H; cbn [xl_run] in H; [injection H as <- <- <-; reflexivity|].
  apply xbind_inv in H as (e & s1 & o1 & o2 & E & H & _). apply xbind_inv in H as (e2 & s2 & o3 & o4 & E2 & H & _). injection H as _ <- _.
  apply IH in E2. rewrite E2. clear E2 IH. destruct o as [t z n d p|c|c dl p|k h].
  1-3: (apply ir_step in E as [_ B]; [exact B|congruence]). cbn [xl_step] in E. rewrite (reg_keep _ _ _ _ _ _ E). reflexivity.
Qed.
Lemma ack_start size nr m d t s : 1 <= nr -> nr < 256 -> m < 65536 -> d < 256 -> (0 < size)%nat -> length (xb_data (x_buf s)) = size ->
  exists s', hrun size t (accept nr m d) s = Some ((ERR_OK, true, 0), s', [start_msg nr m d]) /\ between size [] s' /\ same_rest s s'.
Proof.
  intros A B M D Z L. unfold accept. cbn [hrun acall_run]. unfold rc_of, start_ackn.
  eexists. split; [|split].
  - unfold xbind at 1. unfold xbind at 1. rewrite !xbind_mod. rewrite send_eq1 by assumption. unfold xret. cbn [app].
    unfold start_msg, two. cbn [app]. unfold hi16. change 65280 with (255 * 2 ^ 8). rewrite land_shifted, !land_255, shiftr_div. change (2 ^ 8) with 256. rewrite N.div_mul by lia.
    unfold u8. rewrite (N.mod_small (m / 256)) by lia. rewrite (N.mod_small (m / 256 mod 256)) || idtac. rewrite (N.mod_small d) by lia. rewrite (N.mod_small (m mod 256)) by lia.
    rewrite ?(N.mod_small (m / 256)) by lia. reflexivity.
  - constructor; cbn [x_buf set_xbuf set_cnts x_objs x_bytes]; auto. constructor; cbn [xb_data xb_read xb_nr xb_write length]; auto; try lia.
    + rewrite Nat.mod_small by lia. reflexivity.
    + intros i Hi. cbn in Hi. lia.
  - repeat split.
Qed.
Lemma start2_eq size type nr d p s h s1 e z s' o : x_prog s = Idle -> nth (hidx HStartReq) (x_hand s) None = Some h ->
  s1 = set_comp (set_prog s InProgress) (set_ctype (set_cnr (set_crcid (set_name (x_comp s) (firstn 7 (c_name (x_comp s)) ++ [nth 1 d 0; 0])) (u16 (N.shiftl (nth 2 d 0) 8 + nth 3 d 0))
                (u32 (N.shiftl (nth 4 d 0) 24 + N.shiftl (nth 5 d 0) 16 + N.shiftl (nth 6 d 0) 8 + nth 7 d 0))) nr) type) ->
  hrun size TComp p s1 = Some ((ERR_OK, e, z), s', o) ->
  start_request2 size type nr d p s = Some (ERR_OK, s', XCalled HStartReq h (x_comp s1) :: o).
Proof.
  intros HP HH -> E. unfold start_request2. rewrite xbind_get, HP. unfold xbind at 1. rewrite !xbind_mod. unfold call_handler. unfold xbind at 1. rewrite xbind_get.
  cbn [x_hand set_comp set_prog] in *. rewrite HH, xbind_observe. cbn [x_comp set_comp set_prog] in *. 
  match type of E with ?a = _ => match goal with |- context [hrun size TComp p ?st] => change (hrun size TComp p st) with a end end. rewrite E. cbn [xret fst app].
  change (ERR_OK =? ERR_OK) with true. cbv iota. unfold xret. rewrite !app_nil_r. reflexivity.
Qed.
Lemma dl_started size pre s tab silent nr hs hb he name crc id c maxb delay : ready size pre s tab silent nr hs hb he -> request name crc id ->
  requested s tab nr name crc id c -> maxb < 65536 -> delay < 256 ->
  exists s', xl_run size (start_ops tab silent nr name crc id (accept nr maxb delay)) s = Some ([ERR_OK; ERR_OK], s', [XCalled HStartReq hs c; start_msg nr maxb delay])
   /\ between size [] s' /\ x_comp s' = c /\ x_prog s' = InProgress /\ x_hand s' = x_hand s.
Proof.
  intros [[Z0 Z1] [N1 N2] LI (es & obs & RUN) HP H1 H2 H3] [L LC LD BY] (q & F & ->) M D.
  destruct (regs_run _ _ _ _ _ RUN) as ((_ & RG & _) & _). pose proof (run_len _ _ _ _ _ _ RUN) as LEN. cbn in LEN. rewrite repeat_length in LEN.
  unfold start_ops. cbn [xl_run xl_step].
  destruct (rx_listening size tab silent nr (0x13 :: firstn 7 name) nothing s LI) as (q1 & F1 & E1). cbn [nth] in E1. code E1 19.
  assert (E1' : async_rx size tab silent nr (0x13 :: firstn 7 name) nothing s = Some (ERR_OK, set_comp s (set_name (x_comp s) (firstn 7 name ++ skipn 7 (c_name (x_comp s)))), [])).
  { rewrite E1. unfold start_request1. rewrite xbind_get, HP. rewrite xbind_mod. unfold xret. cbn [skipn]. rewrite firstn_firstn. reflexivity. }
  rewrite (xbind_some _ _ _ _ _ _ E1'). clear E1 E1'. set (s1 := set_comp s _).
  destruct (rx_listening size tab silent nr (0x14 :: skipn 7 name ++ crc ++ id) (accept nr maxb delay) s1 LI) as (q2 & F2 & E2). cbn [nth] in E2. code E2 20.
  assert (q2 = q) as -> by (eapply first_unique; eauto). fold (entry tab q) in E2.
  pose (s2 := set_comp (set_prog s InProgress) (Comp nr (name ++ [0]) (be crc) (be id) (c_index (x_comp s)) (m_type (entry tab q)))).
  destruct (ack_start size nr maxb delay TComp s2 N1 N2 M D Z0 LEN) as (s3 & E3 & BT & (S1 & S2 & S3 & S4 & S5 & S6 & S7)).
  erewrite (start2_eq size _ nr _ _ s1 hs s2) in E2; [|exact HP|cbn [x_hand set_comp s1]; rewrite RG; exact H1| |exact E3].
  2:{ unfold s1, s2. cbn [x_comp set_comp set_prog set_name set_crcid set_cnr set_ctype c_nr c_name c_crc c_id c_index c_type].
      match goal with |- set_comp _ ?c = set_comp _ ?d => replace d with c; [reflexivity|] end.
      apply Forall_app in BY as [BC BD].
      do 8 (destruct name as [|? name]; [discriminate L|]). destruct name; [|discriminate L].
      do 2 (destruct crc as [|? crc]; [discriminate LC|]). destruct crc; [|discriminate LC].
      do 4 (destruct id as [|? id]; [discriminate LD|]). destruct id; [|discriminate LD].
      unfold bytes_ok, is_byte in *. repeat match goal with H : Forall _ (_ :: _) |- _ => inversion H; clear H; subst end.
      unfold set_ctype, set_cnr, set_crcid, set_name. cbn [c_nr c_name c_crc c_id c_index c_type firstn app nth skipn].
      unfold be. cbn [fold_left]. rewrite !N.shiftl_mul_pow2. change (2 ^ 8) with 256. change (2 ^ 16) with 65536. change (2 ^ 24) with 16777216.
      unfold u16, u32. rewrite !N.mod_small by lia. f_equal; lia. }
  unfold xbind, xret. rewrite E2. cbn [app]. exists s3. split; [reflexivity|]. split; [exact BT|]. split; [exact S2|]. split; [exact S1|exact S5].
Qed.

Lemma dl_run size pre s tab silent nr hs hb he name crc id c maxb delay blks l os : ready size pre s tab silent nr hs hb he -> request name crc id ->
  requested s tab nr name crc id c -> maxb < 65536 -> delay < 256 -> delivered size nr hb c [] blks l os ->
  exists es s', xl_run size (dl_ops tab silent nr name crc id maxb delay blks) s = Some (es, s', XCalled HStartReq hs c :: start_msg nr maxb delay :: os)
   /\ Forall (fun e => e = ERR_OK) es /\ between size l s' /\ x_comp s' = c /\ x_prog s' = InProgress /\ x_hand s' = x_hand s.
Proof.
  intros RD RQ RC M D DE. destruct (dl_started _ _ _ _ _ _ _ _ _ _ _ _ _ _ _ RD RQ RC M D) as (s1 & E1 & BT & C1 & P1 & H1).
  destruct RD as [[Z0 Z1] [N1 N2] LI (es & obs & RUN) HP HH1 HH2 HH3]. destruct (regs_run _ _ _ _ _ RUN) as ((_ & RG & _) & _).
  destruct (blocks_run size nr hb c tab silent Z1 N1 N2 LI _ _ _ _ DE s1) as (s2 & E2 & BT2 & (S1 & S2 & S3 & S4 & S5 & S6 & S7)); [rewrite H1, RG; exact HH2|exact C1|exact BT|].
  eexists; exists s2. unfold dl_ops. rewrite xl_run_app, E1, E2. cbn [app]. split; [reflexivity|]. split.
  - do 2 (constructor; [reflexivity|]). apply Forall_forall. intros x I. apply repeat_spec in I. exact I.
  - split; [exact BT2|]. repeat split; congruence.
Qed.
Lemma dl_finish size pre s tab silent nr hs hb he name crc id c maxb delay blks l os : ready size pre s tab silent nr hs hb he -> request name crc id ->
  requested s tab nr name crc id c -> maxb < 65536 -> delay < 256 -> delivered size nr hb c [] blks l os ->
  exists es s', xl_run size (dl_ops tab silent nr name crc id maxb delay blks ++ [end_op tab silent nr]) s =
     Some (es, s', [XCalled HStartReq hs c; start_msg nr maxb delay] ++ os ++ [XCalled HEnd he c; end_ack_msg nr])
   /\ Forall (fun e => e = ERR_OK) es /\ x_prog s' = Idle.
Proof.
  intros RD RQ RC M D DE. destruct (dl_run _ _ _ _ _ _ _ _ _ _ _ _ _ _ _ _ _ _ RD RQ RC M D DE) as (es & s1 & E1 & F & BT & C1 & P1 & H1).
  destruct RD as [[Z0 Z1] [N1 N2] LI (es0 & obs & RUN) HP HH1 HH2 HH3]. destruct (regs_run _ _ _ _ _ RUN) as ((_ & RG & _) & _).
  rewrite xl_run_app, E1. unfold end_op. cbn [xl_run xl_step].
  destruct (rx_listening size tab silent nr [0x17; 0; 0; 0; 0; 0; 0; 0] nothing s1 LI) as (q & _ & E). cbn [nth] in E. code E 23.
  unfold dload_end, call_handler, nothing in E. unfold xbind at 1 in E. rewrite xbind_get, H1, RG, HH3, xbind_observe in E. cbn [hrun xret app] in E.
  change (ERR_OK =? ERR_OK) with true in E. cbv iota in E. unfold end_ackn in E. rewrite xbind_mod, send_eq, xbind_mod in E by assumption. unfold xret in E.
  fold nothing in E. unfold xbind, xret. rewrite E. cbn [app]. rewrite app_nil_r || idtac.
  eexists; eexists. split; [|split].
  - rewrite <- C1. reflexivity.
  - apply Forall_app. split; [exact F|]. constructor; [reflexivity|constructor].
  - reflexivity.
Qed.
Lemma dl_data size tab silent nr l s ms : listening tab silent nr -> between size l s -> Forall (fun m => length m = 7%nat) ms -> N.of_nat size < 65536 ->
  (length l + length (concat ms) <= size)%nat ->
  exists s', xl_run size (data_ops tab silent nr ms) s = Some (repeat ERR_OK (length ms), s', []) /\ xrel size (l ++ concat ms) (x_buf s') /\
    x_objs s' = N.of_nat (length ms) /\ x_bytes s' = N.of_nat (length (concat ms)) /\ same_rest s s'.
Proof.
  intros LI [RB CO CB] F SZ FIT. destruct (rx_datas size tab silent nr LI ms s l F RB FIT) as (b & R & E). unfold data_ops. rewrite E. eexists. split; [reflexivity|].
  assert (LC : length (concat ms) = (7 * length ms)%nat).
  { clear -F. induction F as [|m ms L F IH]; [reflexivity|]. cbn [concat length]. rewrite app_length. lia. }
  rewrite LC in *. destruct ms as [|m ms].
  - split; [exact R|]. cbn [x_objs x_bytes set_xbuf length]. rewrite CO, CB. repeat split.
  - split; [exact R|]. cbn [x_objs x_bytes set_xbuf set_cnts]. rewrite CO, CB. unfold u16. split; [lia|]. split; [lia|]. repeat split.
Qed.
Lemma dl_wrong size pre s tab silent nr hs hb he name crc id c maxb delay blks l os ms n k p rest : ready size pre s tab silent nr hs hb he -> request name crc id ->
  requested s tab nr name crc id c -> maxb < 65536 -> delay < 256 -> delivered size nr hb c [] blks l os ->
  Forall (fun m => length m = 7%nat) ms -> (length l + length (concat ms) <= size)%nat -> k < 65536 -> k <> N.of_nat (length ms) ->
  exists es s', xl_run size (dl_ops tab silent nr name crc id maxb delay blks ++ data_ops tab silent nr ms ++ [LRx tab silent nr (0x16 :: two n ++ two k ++ rest) p]) s =
     Some (es ++ [E_COUNT_NOT_MATCH], s', [XCalled HStartReq hs c; start_msg nr maxb delay] ++ os ++ [term_msg nr E_COUNT_NOT_MATCH])
   /\ x_prog s' = Idle.
Proof.
  intros RD RQ RC M D DE F FIT K KN. destruct (dl_run _ _ _ _ _ _ _ _ _ _ _ _ _ _ _ _ _ _ RD RQ RC M D DE) as (es & s1 & E1 & FE & BT & C1 & P1 & H1).
  destruct RD as [[Z0 Z1] [N1 N2] LI _ HP _ _ _]. destruct (dl_data size tab silent nr l s1 ms LI BT F Z1 FIT) as (s2 & E2 & R2 & O2 & B2 & S2).
  rewrite xl_run_app, E1, xl_run_app, E2. cbn [xl_run xl_step].
  match goal with |- context [async_rx _ _ _ _ ?d ?p0] => destruct (rx_listening size tab silent nr d p0 s2 LI) as (q & _ & E) end. cbn [nth] in E. code E 22.
  unfold block_end, two in E. cbn [app nth] in E. rewrite (two_back k) in E by exact K. rewrite xbind_get, O2 in E. destruct (k =? N.of_nat (length ms)) eqn:EK; [apply N.eqb_eq in EK; congruence|].
  rewrite (xbind_some _ _ _ _ _ _ (term_eq nr E_COUNT_NOT_MATCH s2 N1 N2 ltac:(reflexivity))) in E. unfold xret in E. cbn [app] in E. unfold two. cbn [app]. unfold xbind, xret. rewrite E.
  exists (es ++ repeat ERR_OK (length ms)). eexists. split; [rewrite <- !app_assoc; cbn [app]; reflexivity|]. reflexivity.
Qed.
Lemma addloop_full size : forall src l b, xrel size l b -> (size < length l + length src)%nat -> exists b', xb_add_loop size b src = Some (b', ERR_BUF_OVERFLOW).
Proof.
  induction src as [|x r IH]; intros l b R H; cbn [length] in H; [destruct R; lia|].
  cbn [xb_add_loop]. destruct (xadd_rel size l b x R) as (b1 & -> & R1 & _). destruct (length l <? size)%nat eqn:E.
  - change (ERR_OK =? ERR_OK) with true. cbv iota. apply (IH (l ++ [x])); [exact R1|rewrite app_length; cbn; lia].
  - change (ERR_BUF_OVERFLOW =? ERR_OK) with false. cbv iota. eauto.
Qed.
Lemma dl_full size pre s tab silent nr hs hb he name crc id c maxb delay blks l os ms m : ready size pre s tab silent nr hs hb he -> request name crc id ->
  requested s tab nr name crc id c -> maxb < 65536 -> delay < 256 -> delivered size nr hb c [] blks l os ->
  Forall (fun m => length m = 7%nat) ms -> (length l + length (concat ms) <= size)%nat -> length m = 7%nat -> (size < length l + length (concat ms) + 7)%nat ->
  exists es s', xl_run size (dl_ops tab silent nr name crc id maxb delay blks ++ data_ops tab silent nr (ms ++ [m])) s =
     Some (es ++ [ERR_BUF_OVERFLOW], s', [XCalled HStartReq hs c; start_msg nr maxb delay] ++ os ++ [term_msg nr ERR_BUF_OVERFLOW])
   /\ x_prog s' = Idle.
Proof.
  intros RD RQ RC M D DE F FIT L7 FULL. destruct (dl_run _ _ _ _ _ _ _ _ _ _ _ _ _ _ _ _ _ _ RD RQ RC M D DE) as (es & s1 & E1 & FE & BT & C1 & P1 & H1).
  destruct RD as [[Z0 Z1] [N1 N2] LI _ HP _ _ _]. destruct (dl_data size tab silent nr l s1 ms LI BT F Z1 FIT) as (s2 & E2 & R2 & O2 & B2 & S2).
  replace (data_ops tab silent nr (ms ++ [m])) with (data_ops tab silent nr ms ++ data_ops tab silent nr [m]) by (symmetry; apply map_app).
  rewrite xl_run_app, E1, xl_run_app, E2. unfold data_ops. cbn [map xl_run xl_step].
  match goal with |- context [async_rx _ _ _ _ ?d ?p0] => destruct (rx_listening size tab silent nr d p0 s2 LI) as (q & _ & E) end. cbn [nth] in E. code E 21.
  unfold dload_data in E. rewrite xbind_get in E. cbn [skipn] in E. rewrite firstn_all2 in E by lia.
  destruct (addloop_full size m _ _ R2) as (b & EB); [rewrite app_length; lia|]. rewrite EB, xbind_mod in E. change (ERR_BUF_OVERFLOW =? ERR_OK) with false in E. cbv iota in E.
  rewrite (xbind_some _ _ _ _ _ _ (term_eq nr ERR_BUF_OVERFLOW _ N1 N2 ltac:(reflexivity))) in E. unfold xret in E. cbn [app] in E. unfold xbind, xret. rewrite E.
  exists (es ++ repeat ERR_OK (length ms)). eexists. split; [rewrite <- !app_assoc; cbn [app]; reflexivity|]. reflexivity.
Qed.
Lemma xremove_fail size l b n : xrel size l b -> (length l < n)%nat -> fst (xb_remove size b n) = b.
Proof. intros R H. unfold xb_remove. rewrite (xr_nr _ _ _ R). destruct (_ <? _)%nat eqn:E; [reflexivity|]. apply Nat.ltb_ge in E. lia. Qed.
(** finding: a byte count larger than what was received is accepted *)
Lemma dl_bytes size pre s tab silent nr hs hb he name crc id c maxb delay blks l os ms n p l1 o : ready size pre s tab silent nr hs hb he -> request name crc id ->
  requested s tab nr name crc id c -> maxb < 65536 -> delay < 256 -> delivered size nr hb c [] blks l os ->
  Forall (fun m => length m = 7%nat) ms -> (length l + length (concat ms) <= size)%nat ->
  N.of_nat (length (concat ms)) < n -> n < 65536 - N.of_nat size ->
  buffer_only p -> on_list size p (l ++ concat ms) = (l1, o, ERR_OK) ->
  exists es s', xl_run size (dl_ops tab silent nr name crc id maxb delay blks ++ data_ops tab silent nr ms ++ [LRx tab silent nr (0x16 :: two n ++ two (N.of_nat (length ms)) ++ [0; 0; 0]) p]) s =
     Some (es, s', [XCalled HStartReq hs c; start_msg nr maxb delay] ++ os ++ [XCalled HBlockEnd hb c] ++ o ++ [ack_msg nr])
   /\ Forall (fun e => e = ERR_OK) es.
Proof.
  intros RD RQ RC M D DE F FIT K KN BO OL. destruct (dl_run _ _ _ _ _ _ _ _ _ _ _ _ _ _ _ _ _ _ RD RQ RC M D DE) as (es & s1 & E1 & FE & BT & C1 & P1 & H1).
  destruct RD as [[Z0 Z1] [N1 N2] LI (es0 & obs & RUN) HP _ HB _]. destruct (regs_run _ _ _ _ _ RUN) as ((_ & RG & _) & _).
  destruct (dl_data size tab silent nr l s1 ms LI BT F Z1 FIT) as (s2 & E2 & R2 & O2 & B2 & (S1 & S2 & S3 & S4 & S5 & S6 & S7)).
  assert (LC : length (concat ms) = (7 * length ms)%nat).
  { clear -F. induction F as [|m ms L F IH]; [reflexivity|]. cbn [concat length]. rewrite app_length. lia. }
  rewrite xl_run_app, E1, xl_run_app, E2. cbn [xl_run xl_step].
  match goal with |- context [async_rx _ _ _ _ ?d ?p0] => destruct (rx_listening size tab silent nr d p0 s2 LI) as (q & _ & E) end. cbn [nth] in E. code E 22.
  unfold block_end, two in E. cbn [app nth] in E. rewrite !two_back in E by lia. rewrite xbind_get, O2, N.eqb_refl, xbind_mod, xbind_get in E.
  cbn [x_bend set_bend] in E. rewrite B2 in E. set (e := u16 (N.of_nat (length (concat ms)) + 65536 - n)) in E.
  assert (EV : e = N.of_nat (length (concat ms)) + 65536 - n) by (unfold e, u16; lia). assert (EP : 0 <? e = true) by lia. rewrite EP in E.
  unfold xbind at 1 in E. rewrite xbind_mod in E. unfold xmod in E. cbn [x_buf set_bend set_xbuf x_bend] in E. rewrite (xremove_fail size (l ++ concat ms)) in E; [|exact R2|rewrite app_length; lia].
  unfold call_handler in E. unfold xbind at 1 in E. rewrite xbind_get in E. cbn [x_hand set_bend set_xbuf] in E. rewrite S5, H1, RG, HB, xbind_observe in E.
  match type of E with context [hrun size TComp p ?st] => destruct (bo_run size TComp p BO st (l ++ concat ms) l1 o ERR_OK) as (b & e3 & z & E3 & R3); [exact R2|exact OL|] end.
  rewrite E3 in E. cbn [fst] in E. change (ERR_OK =? ERR_OK) with true in E. cbv iota in E. unfold block_ackn in E. rewrite send_eq in E by assumption. unfold xbind, xret in E.
  unfold two. cbn [app]. unfold xbind, xret. rewrite E. cbn [get_comp x_comp set_bend set_xbuf app]. rewrite S2, C1.
  eexists; eexists. split; [rewrite ?app_nil_r; reflexivity|]. apply Forall_app. split; [exact FE|]. apply Forall_app. split; [|repeat constructor].
  apply Forall_forall. intros x I. apply repeat_spec in I. exact I.
Qed.

(** ** C43 *)
Lemma second_start size tab silent nr name crc id p s : 1 <= nr -> nr < 256 -> listening tab silent nr -> x_prog s = InProgress ->
  xl_run size (start_ops tab silent nr name crc id p) s = Some ([ERR_OK; E_DL_IN_PROGRESS], set_prog (set_comp s (clear_name (x_comp s))) Idle, [term_msg nr E_DL_IN_PROGRESS]).
Proof.
  intros N1 N2 LI HP. unfold start_ops. cbn [xl_run xl_step].
  destruct (rx_listening size tab silent nr (0x13 :: firstn 7 name) nothing s LI) as (q1 & _ & E1). cbn [nth] in E1. code E1 19.
  unfold start_request1 in E1. rewrite xbind_get, HP, xbind_ret in E1. unfold xret in E1.
  destruct (rx_listening size tab silent nr (0x14 :: skipn 7 name ++ crc ++ id) p s LI) as (q2 & _ & E2). cbn [nth] in E2. code E2 20.
  unfold start_request2 in E2. rewrite xbind_get, HP, xbind_ret in E2. change (E_DL_IN_PROGRESS =? ERR_OK) with false in E2. cbv iota in E2.
  rewrite (xbind_some _ _ _ _ _ _ (term_eq nr E_DL_IN_PROGRESS s N1 N2 ltac:(reflexivity))) in E2. unfold xret in E2. cbn [app] in E2.
  unfold xbind, xret. rewrite E1, E2. reflexivity.
Qed.
Lemma second_refuted size pre s tab silent nr hs hb he name crc id c maxb delay blks l os t2 z2 nr2 name2 crc2 id2 p : ready size pre s tab silent nr hs hb he -> request name crc id ->
  requested s tab nr name crc id c -> maxb < 65536 -> delay < 256 -> delivered size nr hb c [] blks l os -> 1 <= nr2 < 256 -> listening t2 z2 nr2 ->
  exists es s', xl_run size (dl_ops tab silent nr name crc id maxb delay blks ++ start_ops t2 z2 nr2 name2 crc2 id2 p) s =
     Some (es ++ [E_DL_IN_PROGRESS], s', [XCalled HStartReq hs c; start_msg nr maxb delay] ++ os ++ [term_msg nr2 E_DL_IN_PROGRESS])
   /\ x_prog s' = Idle /\ firstn 8 (c_name (x_comp s')) = repeat 0 8.
Proof.
  intros RD RQ RC M D DE [N1 N2] LI. destruct (dl_run _ _ _ _ _ _ _ _ _ _ _ _ _ _ _ _ _ _ RD RQ RC M D DE) as (es & s1 & E1 & FE & BT & C1 & P1 & H1).
  rewrite xl_run_app, E1, second_start by assumption. exists (es ++ [ERR_OK]). eexists. split; [rewrite <- app_assoc; reflexivity|]. split; reflexivity.
Qed.
Lemma upload_refuted size pre s tab silent nr hs hb he name crc id c maxb delay blks l os ms d p2 p t2 z2 nr2 n : ready size pre s tab silent nr hs hb he -> request name crc id ->
  requested s tab nr name crc id c -> maxb < 65536 -> delay < 256 -> delivered size nr hb c [] blks l os ->
  Forall (fun m => length m = 7%nat) ms -> (length l + length (concat ms) <= size)%nat -> ms <> [] -> listening t2 z2 nr2 -> n < 65536 ->
  exists es s', xl_run size (dl_ops tab silent nr name crc id maxb delay blks ++ data_ops tab silent nr ms ++
       [LRx t2 z2 nr2 (0x1D :: d) p2; LRx tab silent nr (0x16 :: two n ++ two (N.of_nat (length ms)) ++ [0; 0; 0]) p]) s =
     Some (es ++ [E_COUNT_NOT_MATCH], s', [XCalled HStartReq hs c; start_msg nr maxb delay] ++ os ++ [term_msg nr E_COUNT_NOT_MATCH])
   /\ x_prog s' = Idle.
Proof.
  intros RD RQ RC M D DE F FIT NE LI2 NN. destruct (dl_run _ _ _ _ _ _ _ _ _ _ _ _ _ _ _ _ _ _ RD RQ RC M D DE) as (es & s1 & E1 & FE & BT & C1 & P1 & H1).
  destruct RD as [[Z0 Z1] [N1 N2] LI _ HP _ _ _]. destruct (dl_data size tab silent nr l s1 ms LI BT F Z1 FIT) as (s2 & E2 & R2 & O2 & B2 & S2).
  assert (LC : length (concat ms) = (7 * length ms)%nat).
  { clear -F. induction F as [|m ms L F IH]; [reflexivity|]. cbn [concat length]. rewrite app_length. lia. }
  rewrite xl_run_app, E1, xl_run_app, E2. cbn [xl_run xl_step].
  destruct (rx_listening size t2 z2 nr2 (0x1D :: d) p2 s2 LI2) as (q2 & _ & E3). cbn [nth] in E3. code E3 29.
  unfold ul_request1, start_request1 in E3. rewrite !xbind_mod, xbind_get in E3. cbn [x_prog set_cnts set_comp] in E3. destruct S2 as (S1 & _). rewrite S1, P1, xbind_ret in E3. unfold xret in E3.
  match type of E3 with _ = Some (_, ?st, _) => set (s3 := st) in E3 end.
  match goal with |- context [async_rx _ _ _ _ (22 :: ?d0) ?p0] => destruct (rx_listening size tab silent nr (22 :: d0) p0 s3 LI) as (q & _ & E) end. cbn [nth] in E. code E 22.
  unfold block_end, two in E. cbn [app nth] in E. rewrite !two_back in E by lia. rewrite xbind_get in E. cbn [s3 x_objs set_cnts set_comp] in E.
  destruct (N.of_nat (length ms) =? 0) eqn:EK; [apply N.eqb_eq in EK; destruct ms; [congruence|cbn in EK; lia]|].
  rewrite (xbind_some _ _ _ _ _ _ (term_eq nr E_COUNT_NOT_MATCH _ N1 N2 ltac:(reflexivity))) in E. unfold xret in E. cbn [app] in E. unfold two. cbn [app].
  unfold xbind, xret. rewrite E3. rewrite E. exists (es ++ repeat ERR_OK (length ms) ++ [ERR_OK]). eexists. split; [rewrite <- !app_assoc; cbn [app]; reflexivity|]. reflexivity.
Qed.
Lemma unrelated_step size o s : unrelated o -> exists e v, xl_step size o s = Some (e, set_vers s v, []).
Proof.
  assert (SV : set_vers s (x_vers s) = s) by (destruct s; reflexivity).
  intros [tab silent nr d p NL|tab silent nr d p C]; cbn [xl_step].
  - exists ERR_OK, (x_vers s). rewrite rx_deaf, SV by exact NL. reflexivity.
  - pose proof (listening_iff tab silent nr) as LI.
    assert (DEC : listening tab silent nr \/ ~ listening tab silent nr).
    { destruct (by_nr tab silent nr) as [(q & FQ & E)|[NO E]].
      - destruct (N.eq_dec (nth q silent 0) SILENT) as [Z|Z]; [right|left; exists q; auto]. intros (q' & FQ' & Z'). assert (q = q') as -> by (eapply first_unique; eauto). congruence.
      - right. intros (q' & (L & FQ' & _) & _). exact (NO q' L FQ'). }
    destruct DEC as [LIS|NL]; [|exists ERR_OK, (x_vers s); rewrite rx_deaf, SV by exact NL; reflexivity].
    destruct (rx_listening size tab silent nr d p s LIS) as (q & _ & ->). cbv zeta.
    match goal with |- context [?x =? 16] => set (k := x) end. assert (C' : In k [0x11; 0x18; 0x19] \/ ~ In k known_codes) by exact C. clear C. rename C' into C. clearbody k.
    destruct C as [C|C].
    + cbn [In] in C. destruct C as [C|[C|[C|[]]]]; rewrite <- C.
      * codeg 17. unfold version_long1. rewrite xbind_mod. unfold xret. eauto.
      * codeg 24. exists ERR_OK, (x_vers s). rewrite SV. reflexivity.
      * codeg 25. exists ERR_OK, (x_vers s). rewrite SV. reflexivity.
    + unfold known_codes in C. cbn [In] in C. 
      repeat match goal with |- context [k =? ?n] => let E := fresh in destruct (k =? n) eqn:E; [exfalso; apply C; apply N.eqb_eq in E; rewrite E; repeat (first [left; reflexivity|right])|clear E] end.
      exists E_UNKNOWN_COMMAND, (x_vers s). rewrite SV. reflexivity.
Qed.
(** operations that do not look at the component of version requests *)
Definition blind {A} (m : X A) : Prop := forall s v, m (set_vers s v) = match m s with Some (a, s1, o) => Some (a, set_vers s1 v, o) | None => None end.
Lemma blind_ret {A} (a : A) : blind (xret a). Proof. intros s v. reflexivity. Qed.
Lemma blind_mod f : (forall s v, f (set_vers s v) = set_vers (f s) v) -> blind (xmod f).
Proof. intros H s v. unfold xmod. rewrite H. reflexivity. Qed.
Lemma blind_observe o : blind (xobserve o). Proof. intros s v. reflexivity. Qed.
Lemma blind_fail {A} : blind (xfail (A:=A)). Proof. intros s v. reflexivity. Qed.
Lemma blind_bind {A B} (m : X A) (f : A -> X B) : blind m -> (forall a, blind (f a)) -> blind (xbind m f).
Proof.
  intros P Q s v. unfold xbind. rewrite P. destruct (m s) as [[[a s1] o1]|]; [|reflexivity]. rewrite (Q a). destruct (f a s1) as [[[b s2] o2]|]; reflexivity.
Qed.
Lemma blind_get {B} (f : xst -> X B) : (forall s v, f (set_vers s v) = f s) -> (forall s, blind (f s)) -> blind (xbind xget f).
Proof. intros P Q s v. rewrite !xbind_get. rewrite P. apply Q. Qed.
Ltac bl1 :=
  match goal with
  | |- blind (xbind xget _) => apply blind_get; [intros; reflexivity|intro]
  | |- blind (xbind _ _) => apply blind_bind; [|intro]
  | |- blind (xret _) => apply blind_ret
  | |- blind (xfail) => apply blind_fail
  | |- blind (xobserve _) => apply blind_observe
  | |- blind (xmod _) => apply blind_mod; intros; reflexivity
  | |- blind (match ?x with _ => _ end) => destruct x
  end.
Lemma blind_send nr d : blind (xsend nr d). Proof. unfold xsend. repeat bl1. Qed.
Lemma blind_term nr e : blind (termination nr e). Proof. unfold termination. apply blind_bind; [bl1|intro]. cbv zeta. apply blind_bind; [apply blind_send|intro]. repeat bl1. Qed.
Lemma blind_hrun size p : buffer_only p -> blind (hrun size TComp p).
Proof.
  induction 1 as [rc e z|o k NR B IH]; cbn [hrun]; [bl1|]. intros s v. unfold xbind. cbn [acall_run]. rewrite !xbind_get. cbn [x_buf set_vers].
  destruct (xb_step size (x_buf s) o) as [[b r]|]; [|reflexivity]. rewrite !xbind_mod, !xbind_observe. unfold xret. 
  specialize (IH r (set_xbuf s b) v). change (set_xbuf (set_vers s v) b) with (set_vers (set_xbuf s b) v). rewrite IH. destruct (hrun size TComp (k (AUse r)) (set_xbuf s b)) as [[[x s2] os]|]; reflexivity.
Qed.
Lemma blind_call size k p : buffer_only p -> blind (call_handler size k TComp p).
Proof. intro B. unfold call_handler. apply blind_get; [reflexivity|intro s]. destruct (nth _ _ _); [|bl1]. apply blind_bind; [bl1|intro; apply blind_hrun, B]. Qed.
Lemma blind_data size nr d : blind (dload_data size nr d).
Proof. unfold dload_data. apply blind_get; [reflexivity|intro s]. destruct (xb_add_loop _ _ _) as [[b rc]|]; [|bl1]. apply blind_bind; [bl1|intro]. destruct (_ =? _); [repeat bl1|]. apply blind_bind; [apply blind_term|intro; bl1]. Qed.
Lemma blind_block_end size nr d p : buffer_only p -> blind (block_end size nr d p).
Proof.
  intro B. unfold block_end. apply blind_get; [reflexivity|intro s]. destruct (_ =? _); [|apply blind_bind; [apply blind_term|intro; bl1]].
  apply blind_bind; [bl1|intro]. apply blind_get; [reflexivity|intro s1]. apply blind_bind; [repeat bl1|intro]. apply blind_bind; [apply blind_call, B|intro r].
  destruct (_ =? _); [|apply blind_bind; [apply blind_term|intro; bl1]]. unfold block_ackn. apply blind_bind; [apply blind_send|intro; repeat bl1].
Qed.
Lemma blind_end size nr p : buffer_only p -> blind (dload_end size nr p).
Proof.
  intro B. unfold dload_end. apply blind_bind; [apply blind_call, B|intros [[rc e] z]]. destruct (_ =? _); [|apply blind_bind; [apply blind_term|intro; bl1]].
  destruct e; [|bl1]. unfold end_ackn. apply blind_bind; [bl1|intro]. apply blind_bind; [apply blind_send|intro; repeat bl1].
Qed.
Definition dl_message (o : xlop) : Prop := exists tab silent nr d p, o = LRx tab silent nr d p /\ In (nth 0 d 0) [0x15; 0x16; 0x17] /\ buffer_only p.
Lemma blind_message size o : dl_message o -> blind (xl_step size o).
Proof.
  intros (tab & silent & nr & d & p & -> & C & B). cbn [xl_step]. unfold async_rx. destruct (nr_valid tab silent nr) as [[pos st] found].
  destruct (found =? 0); [bl1|]. destruct (st =? SILENT); [bl1|]. cbv zeta.
  match goal with |- context [?x =? 16] => set (k := x) end. assert (C' : In k [0x15; 0x16; 0x17]) by exact C. clear C. rename C' into C. clearbody k. cbn [In] in C. destruct C as [C|[C|[C|[]]]]; rewrite <- C.
  - codeg 21. apply blind_data.
  - codeg 22. apply blind_block_end, B.
  - codeg 23. apply blind_end, B.
Qed.
Lemma run_blind size : forall ops s v, Forall dl_message ops -> xl_run size ops (set_vers s v) = match xl_run size ops s with Some (e, s1, o) => Some (e, set_vers s1 v, o) | None => None end.
Proof.
  induction ops as [|o r IH]; intros s v F; cbn [xl_run]; [reflexivity|]. inversion F; subst. apply blind_bind; [apply blind_message; assumption|intro].
  apply blind_bind; [|intro; bl1]. intros s0 v0. apply IH. assumption.
Qed.
Lemma mixed_run size ops ops' : mixed ops ops' -> Forall dl_message ops -> forall s es s' obs, xl_run size ops s = Some (es, s', obs) ->
  exists es' v, xl_run size ops' s = Some (es', set_vers s' v, obs).
Proof.
  induction 1 as [|o a b MX IH|o a b U MX IH]; intros F s es s' obs H.
  - injection H as <- <- <-. exists [], (x_vers s). destruct s; reflexivity.
  - inversion F; subst. cbn [xl_run] in *. apply xbind_inv in H as (e & s1 & o1 & o2 & E & H & ->). apply xbind_inv in H as (es1 & s2 & o3 & o4 & E2 & H & ->). injection H as _ <- <-.
    destruct (IH H3 _ _ _ _ E2) as (es' & v & E'). exists (e :: es'), v. unfold xbind. rewrite E, E'. reflexivity.
  - destruct (unrelated_step size o s U) as (e & v & E).
    destruct (IH F (set_vers s v) es (set_vers s' v) obs) as (es' & v' & E'); [rewrite run_blind, H by exact F; reflexivity|].
    exists (e :: es'), v'. cbn [xl_run]. unfold xbind. rewrite E, E'. unfold xret. cbn [app]. rewrite app_nil_r. reflexivity.
Qed.
Lemma blocks_messages tab silent nr l c size h : forall blks l' os, delivered size nr h c l blks l' os -> Forall dl_message (concat (map (blk_ops tab silent nr) blks)).
Proof.
  intros blks l' os D. induction D as [|l b l1 o r l2 os BK BO FIT OL D IH]; cbn [map concat]; [constructor|]. apply Forall_app. split; [|exact IH].
  unfold blk_ops. apply Forall_app. split.
  - apply Forall_forall. intros x I. apply in_map_iff in I as (m & <- & _). exists tab, silent, nr, (0x15 :: m), nothing. split; [reflexivity|]. split; [left; reflexivity|constructor].
  - constructor; [|constructor]. exists tab, silent, nr, (blk_end_msg b), (b_hand b). split; [reflexivity|]. split; [right; left; reflexivity|exact BO].
Qed.
Lemma dl_mixed size pre s tab silent nr hs hb he name crc id c maxb delay blks l os ops : ready size pre s tab silent nr hs hb he -> request name crc id ->
  requested s tab nr name crc id c -> maxb < 65536 -> delay < 256 -> delivered size nr hb c [] blks l os ->
  mixed (concat (map (blk_ops tab silent nr) blks) ++ [end_op tab silent nr]) ops ->
  exists es s', xl_run size (start_ops tab silent nr name crc id (accept nr maxb delay) ++ ops) s =
     Some (es, s', [XCalled HStartReq hs c; start_msg nr maxb delay] ++ os ++ [XCalled HEnd he c; end_ack_msg nr])
   /\ x_prog s' = Idle.
Proof.
  intros RD RQ RC M D DE MX. destruct (dl_finish _ _ _ _ _ _ _ _ _ _ _ _ _ _ _ _ _ _ RD RQ RC M D DE) as (es & s1 & E1 & FE & P1).
  unfold dl_ops in E1. rewrite <- app_assoc, xl_run_app in E1. rewrite xl_run_app. destruct (xl_run size (start_ops _ _ _ _ _ _ _) s) as [[[e1 s0] o1]|] eqn:E0; [|discriminate].
  destruct (xl_run size (concat _ ++ _) s0) as [[[e2 s2] o2]|] eqn:E2; [|discriminate]. injection E1 as <- <- E1.
  destruct (mixed_run size _ _ MX) with (s := s0) (es := e2) (s' := s2) (obs := o2) as (es' & v & E'); [|exact E2|].
  - apply Forall_app. split; [eapply blocks_messages; eauto|]. constructor; [|constructor]. unfold end_op. do 5 eexists. split; [reflexivity|]. split; [right; right; left; reflexivity|constructor].
  - rewrite E'. exists (e1 ++ es'), (set_vers s2 v). split; [rewrite E1; reflexivity|]. exact P1.
Qed.
Lemma half_start size tab silent nr d p s : x_prog s = InProgress -> async_rx size tab silent nr (0x13 :: d) p s = Some (ERR_OK, s, []).
Proof.
  intro HP. unfold async_rx. destruct (nr_valid tab silent nr) as [[pos st] found]. destruct (found =? 0); [reflexivity|]. destruct (st =? SILENT); [reflexivity|].
  cbn [nth]. codeg 19. unfold start_request1. rewrite xbind_get, HP. reflexivity.
Qed.

(** ** C44 *)
Lemma skipn_add {A} : forall b a (l : list A), skipn a (skipn b l) = skipn (b + a) l.
Proof. induction b as [|b IH]; intros a l; [reflexivity|]. destruct l; [rewrite !skipn_nil; reflexivity|apply IH]. Qed.
Definition padded (l : list byte) : list byte := firstn 7 l ++ repeat 0 (7 - length l).
Lemma fill_spec data : N.of_nat (length data) < 65536 -> forall n (c : nat), (c <= length data)%nat ->
  fill n data (N.of_nat (length data)) (N.of_nat c) =
  Some (firstn n (skipn c data) ++ repeat 0 (n - length (skipn c data)), N.of_nat (Nat.min (c + n) (length data))).
Proof.
  intro SZ. induction n as [|n IH]; intros c LE; cbn [fill].
  - cbn [firstn Nat.sub repeat app]. f_equal. f_equal. f_equal. lia.
  - rewrite skipn_length. destruct (N.of_nat c <? N.of_nat (length data)) eqn:E.
    + rewrite Nat2N.id. destruct (nth_error data c) as [x|] eqn:EN; [|apply nth_error_None in EN; lia].
      replace (u16 (N.of_nat c + 1)) with (N.of_nat (S c)) by (unfold u16; lia). rewrite IH by lia.
      assert (SK : skipn c data = x :: skipn (S c) data).
      { clear -EN. revert c EN. induction data as [|y r IHd]; intros [|c] EN; cbn in EN; try discriminate; [injection EN as ->; reflexivity|]. cbn [skipn]. rewrite (IHd c EN). reflexivity. }
      rewrite SK. cbn [firstn app]. rewrite skipn_length. f_equal. f_equal; [|f_equal; lia]. f_equal. f_equal. f_equal. lia.
    + rewrite IH by lia. assert (c = length data) by lia. subst c. rewrite skipn_all, !firstn_nil. cbn [app length]. rewrite Nat.sub_0_r, Nat.sub_diag, Nat.sub_0_r. cbn [repeat]. f_equal. f_equal. f_equal. lia.
Qed.
Lemma ul_end_eq nr s n k : 1 <= nr -> nr < 256 -> x_bytes s = n -> x_objs s = k -> n < 65536 -> k < 65536 -> ul_block_end nr s = Some (ERR_OK, s, [up_end nr n k]).
Proof.
  intros A B <- <- C D. unfold ul_block_end. rewrite xbind_get, send_eq1 by assumption. unfold up_end, two. cbn [app]. unfold hi16. change 65280 with (255 * 2 ^ 8).
  rewrite !land_shifted, !land_255, !shiftr_div. change (2 ^ 8) with 256. rewrite !N.div_mul by lia. unfold u8.
  match goal with |- Some (_, _, [XFrame _ (_ :: ?a :: ?b :: ?c :: ?d :: _)]) = Some (_, _, [XFrame _ (_ :: ?a' :: ?b' :: ?c' :: ?d' :: _)]) =>
    replace a with a' by lia; replace b with b' by lia; replace c with c' by lia; replace d with d' by lia end. reflexivity.
Qed.
Lemma pieces_len : forall f l, (length l < f)%nat -> (length (pieces f l) <= S (length l))%nat /\ (1 <= length (pieces f l))%nat.
Proof.
  induction f as [|f IH]; intros l H; [lia|]. cbn [pieces]. destruct (length l <=? 7)%nat eqn:E; [cbn; lia|]. apply Nat.leb_gt in E. cbn [length].
  specialize (IH (skipn 7 l)). rewrite skipn_length in IH. lia.
Qed.
Lemma pieces_fuel : forall f g l, (length l < f)%nat -> (length l < g)%nat -> pieces f l = pieces g l.
Proof.
  induction f as [|f IH]; intros [|g] l F G; try lia. cbn [pieces]. destruct (length l <=? 7)%nat eqn:E; [reflexivity|]. apply Nat.leb_gt in E. f_equal. apply IH; rewrite skipn_length; lia.
Qed.
Definition up_data (nr : N) (ms : list (list byte)) : list xobs := map (fun m => XFrame (ctl_id nr) (0x15 :: m)) ms.
Lemma ul_loop_spec data nr : N.of_nat (length data) < 65536 -> 1 <= nr -> nr < 256 ->
  forall n ticks, (length ticks <= n)%nat -> forall c s old b s' obs,
  (c <= length data)%nat -> c_nr (x_comp s) = nr -> x_bytes s = N.of_nat (Nat.min (c + 7) (length data)) -> 7 * x_objs s <= N.of_nat c ->
  ul_loop data (N.of_nat (length data)) (padded (skipn c data)) old ticks s = Some (b, s', obs) ->
  let ms := pieces (S (length data)) (skipn c data) in
  (if b then obs = up_data nr ms ++ [up_end nr (N.of_nat (length data)) (x_objs s + N.of_nat (length ms))] /\ x_bytes s' = N.of_nat (length data) /\ x_comp s' = x_comp s /\ x_delay s' = x_delay s
   else exists rest, obs ++ rest = up_data nr ms ++ [up_end nr (N.of_nat (length data)) (x_objs s + N.of_nat (length ms))]).
Proof.
  intros SZ N1 N2. induction n as [|n IH]; intros [|now ticks] LT c s old b s' obs LE HN HB HO H; cbn [length] in LT; try lia; cbn [ul_loop] in H.
  1-2: injection H as <- <- <-; eexists; reflexivity.
  rewrite xbind_get in H. destruct (_ <? now).
  2:{ apply (IH ticks ltac:(lia)) in H; assumption. }
  rewrite HN, send_eq in H by assumption. rewrite xbind_mod, xbind_get in H. cbn [x_bytes set_cnts] in H. rewrite HB in H.
  assert (PL := pieces_len (S (length data)) (skipn c data)). rewrite skipn_length in PL.
  assert (U : u16 (x_objs s + 1) = x_objs s + 1) by (unfold u16; apply N.mod_small; lia). rewrite U in H.
  cbn [pieces] in PL |- *. rewrite ?skipn_length in PL |- *.
  destruct (N.of_nat (Nat.min (c + 7) (length data)) <? N.of_nat (length data)) eqn:E.
  - destruct (length data - c <=? 7)%nat eqn:E7; [apply Nat.leb_le in E7; lia|]. apply Nat.leb_gt in E7. cbn [length] in PL.
    destruct ticks as [|now2 ticks].
    + cbn [x_bytes set_cnts] in H. injection H as <- <- <-. eexists. unfold up_data. cbn [map app]. unfold padded. rewrite skipn_length. replace (7 - (length data - c))%nat with 0%nat by lia. cbn [repeat]. rewrite app_nil_r. reflexivity.
    + rewrite fill_spec in H by (try exact SZ; lia). rewrite xbind_mod in H.
      replace (Nat.min (c + 7) (length data)) with (c + 7)%nat in HB, H by lia.
      match type of H with match ?m with _ => _ end = _ => destruct m as [[[b2 s2] o2]|] eqn:EL; [|discriminate] end. injection H as <- <- <-.
      replace (firstn 7 (skipn (c + 7) data) ++ repeat 0 (7 - length (skipn (c + 7) data))) with (padded (skipn (c + 7) data)) in EL by reflexivity.
      apply (IH ticks ltac:(cbn in LT; lia)) in EL; [|lia|exact HN|reflexivity|cbn [x_objs set_cnts]; lia].
      cbn [x_objs set_cnts x_comp x_delay] in EL. cbv zeta in EL |- *.
      assert (SK : skipn 7 (skipn c data) = skipn (c + 7) data).
      { apply skipn_add. }
      rewrite SK. rewrite (pieces_fuel (length data) (S (length data)) (skipn (c + 7) data)) by (rewrite skipn_length; lia).
      cbn [length]. unfold up_data in EL |- *. cbn [map].
      assert (PD : padded (skipn c data) = firstn 7 (skipn c data)) by (unfold padded; rewrite skipn_length; replace (7 - (length data - c))%nat with 0%nat by lia; apply app_nil_r). rewrite PD.
      replace (x_objs s + 1 + N.of_nat (length (pieces (S (length data)) (skipn (c + 7) data)))) with (x_objs s + N.of_nat (S (length (pieces (S (length data)) (skipn (c + 7) data))))) in EL by lia.
      destruct b2.
      * destruct EL as (-> & Q1 & Q2 & Q3). split; [reflexivity|]. split; [exact Q1|]. split; [exact Q2|exact Q3].
      * destruct EL as (rest & EL). exists rest. cbn [app]. rewrite EL. reflexivity.
  - destruct (length data - c <=? 7)%nat eqn:E7; [|apply Nat.leb_gt in E7; lia]. apply Nat.leb_le in E7. replace (Nat.min (c + 7) (length data)) with (length data) in HB, H by lia.
    cbn [length] in PL |- *.
    cbn [x_comp set_cnts] in H. rewrite HN in H.
    match type of H with context [xbind (ul_block_end _) _ ?st] => rewrite (xbind_some _ _ _ _ _ _ (ul_end_eq nr st (N.of_nat (length data)) (x_objs s + 1) N1 N2 ltac:(first [exact HB|reflexivity]) eq_refl SZ ltac:(lia))) in H end.
    unfold xret in H. injection H as <- <- <-.
    assert (PD : padded (skipn c data) = skipn c data ++ repeat 0 (7 - (length data - c))) by (unfold padded; rewrite skipn_length, firstn_all2 by (rewrite skipn_length; lia); reflexivity).
    destruct ticks; [exists []|]; unfold up_data; cbn [map app]; rewrite <- PD; change (N.of_nat 1) with 1; [reflexivity|]. split; [reflexivity|]. split; [first [exact HB|reflexivity]|]. split; reflexivity.
Qed.
Lemma upload_spec data s ticks nr b s' obs : N.of_nat (length data) < 65536 -> 1 <= nr -> nr < 256 -> c_nr (x_comp s) = nr -> x_bytes s = 0 ->
  upload data (N.of_nat (length data)) ticks s = Some (b, s', obs) ->
  if b then obs = up_frames nr data /\ x_bytes s' = N.of_nat (length data) /\ x_comp s' = x_comp s /\ x_delay s' = x_delay s else exists rest, obs ++ rest = up_frames nr data.
Proof.
  intros SZ N1 N2 HN HB H. unfold upload in H. rewrite xbind_mod in H. destruct ticks as [|t0 rest]; [injection H as <- <- <-; eexists; reflexivity|].
  rewrite xbind_get in H. cbn [x_bytes set_cnts] in H. change 0 with (N.of_nat 0) in HB. rewrite HB in H. rewrite fill_spec in H by (try exact SZ; lia). rewrite xbind_mod in H.
  change (skipn 0 data) with data in H.
  match type of H with ul_loop _ _ _ _ _ ?st = _ => pose proof (ul_loop_spec data nr SZ N1 N2 (length rest) rest (Nat.le_refl _) 0%nat st t0 b s' obs ltac:(lia) HN eq_refl ltac:(cbn; lia) H) as P end.
  cbn [x_objs set_cnts x_comp x_delay skipn] in P. rewrite N.add_0_l in P. exact P.
Qed.
(** a counter left over from a block at least as long *)
Lemma upload_stale data s ticks nr b s' obs : N.of_nat (length data) <= x_bytes s -> x_bytes s < 65536 -> 1 <= nr -> nr < 256 -> c_nr (x_comp s) = nr ->
  upload data (N.of_nat (length data)) ticks s = Some (b, s', obs) ->
  if b then obs = [XFrame (ctl_id nr) [0x15; 0; 0; 0; 0; 0; 0; 0]; up_end nr (x_bytes s) 1] else exists rest, obs ++ rest = [XFrame (ctl_id nr) [0x15; 0; 0; 0; 0; 0; 0; 0]; up_end nr (x_bytes s) 1].
Proof.
  intros LE SZ N1 N2 HN H. unfold upload in H. rewrite xbind_mod in H. destruct ticks as [|t0 ticks]; [injection H as <- <- <-; eexists; reflexivity|].
  rewrite xbind_get in H. cbn [x_bytes set_cnts] in H.
  assert (FL : forall n, fill n data (N.of_nat (length data)) (x_bytes s) = Some (repeat 0 n, x_bytes s)).
  { induction n as [|n IH]; cbn [fill]; [reflexivity|]. destruct (_ <? _) eqn:E; [lia|]. rewrite IH. reflexivity. }
  rewrite FL, xbind_mod in H. change (repeat 0 7) with [0; 0; 0; 0; 0; 0; 0] in H.
  change (set_cnts (set_cnts s 0 (x_bytes s)) (x_objs (set_cnts s 0 (x_bytes s))) (x_bytes s)) with (set_cnts s 0 (x_bytes s)) in H.
  revert H. generalize t0 as old. induction ticks as [|now ticks IH]; intros old H; cbn [ul_loop] in H.
  - injection H as <- <- <-. eexists. reflexivity.
  - rewrite xbind_get in H. destruct (_ <? now); [|apply IH in H; exact H]. cbn [x_comp set_cnts] in H. rewrite HN, send_eq in H by assumption. rewrite xbind_mod, xbind_get in H.
    cbn [x_bytes set_cnts] in H. destruct (_ <? _) eqn:E; [lia|]. cbn [x_comp set_cnts] in H. 
    rewrite HN in H. match type of H with context [xbind (ul_block_end _) _ ?st] => rewrite (xbind_some _ _ _ _ _ _ (ul_end_eq nr st (x_bytes s) 1 N1 N2 eq_refl eq_refl SZ ltac:(reflexivity))) in H end. unfold xret in H. injection H as <- <- <-.
    destruct ticks; [exists []|]; reflexivity.
Qed.

(** an upload session: two requests, the handler uploads a block; after the acknowledge another block *)
Lemma up_request size tab silent nr name l2 mb delay data ticks rest t s h es s' o : 1 <= nr -> nr < 256 -> N.of_nat (length data) < 65536 -> length name = 7%nat ->
  listening tab silent nr -> x_prog s = Idle -> nth (hidx HUpStart) (x_hand s) None = Some h ->
  xl_run size [LRx tab silent nr (0x1D :: name) nothing; LRx tab silent nr (0x1E :: l2 :: two mb ++ delay :: rest) (HCall (AUpload data (N.of_nat (length data)) ticks) (fun _ => HFin ERR_OK t 0))] s = Some (es, s', o) ->
  o = XCalled HUpStart h (Comp nr (name ++ [l2; 0]) (c_crc (x_comp s)) (c_id (x_comp s)) (c_index (x_comp s)) (c_type (x_comp s))) :: up_frames nr data /\
  x_bytes s' = N.of_nat (length data) /\ c_nr (x_comp s') = nr /\ x_hand s' = x_hand s.
Proof.
  intros N1 N2 SZ L7 LI HP HH H. cbn [xl_run xl_step] in H.
  apply xbind_inv in H as (e1 & s1 & o1 & o2 & E & H & ->). apply xbind_inv in H as (e2 & s2 & o3 & o4 & E2 & H & ->). injection H as <- <- <-.
  apply xbind_inv in E2 as (e3 & s3 & o5 & o6 & E2 & H & ->). injection H as <- <- <-. rewrite !app_nil_r.
  destruct (rx_listening size tab silent nr (0x1D :: name) nothing s LI) as (q & _ & X). rewrite X in E. clear X. cbn [nth] in E. code E 29.
  unfold ul_request1, start_request1 in E. rewrite !xbind_mod, xbind_get in E. cbn [x_prog set_comp set_cnts] in E. rewrite HP, xbind_mod in E. injection E as <- <- <-.
  match type of E2 with async_rx _ _ _ _ ?d ?p ?st = _ => destruct (rx_listening size tab silent nr d p st LI) as (q2 & _ & X); rewrite X in E2; clear X end.
  cbn [nth] in E2. code E2 30. unfold ul_request2 in E2. rewrite xbind_get in E2. cbn [x_prog set_comp set_cnts] in E2. rewrite HP in E2.
  apply xbind_inv in E2 as (rc & s4 & o7 & o8 & E2 & H & ->). rewrite !xbind_mod in E2. apply xbind_inv in E2 as (r & s5 & o9 & o10 & E2 & H2 & ->). injection H2 as <- <- <-.
  unfold call_handler in E2. rewrite xbind_get in E2. cbn [x_hand set_pace set_comp set_prog set_cnts] in E2. rewrite HH, xbind_observe in E2.
  match type of E2 with match ?m with _ => _ end = _ => destruct m as [[[b s6] o11]|] eqn:ER; [|discriminate] end. injection E2 as <- <- <-.
  cbn [hrun] in ER. apply xbind_inv in ER as (a & s7 & o12 & o13 & ER & EF & ->). injection EF as <- <- <-.
  cbn [acall_run] in ER. apply xbind_inv in ER as (ok & s8 & o14 & o15 & ER & EF & ->). destruct ok; [|discriminate]. injection EF as <- <- <-.
  pose proof (ir_upload data (N.of_nat (length data)) ticks _ _ _ _ ER) as [[HHR _] _].
  apply (upload_spec _ _ _ nr) in ER; try assumption; [|reflexivity|reflexivity]. destruct ER as (-> & Q1 & Q2 & Q3).
  cbn [fst] in H. change (ERR_OK =? ERR_OK) with true in H. cbv iota in H. injection H as <- <- <-. rewrite !app_nil_r. cbn [app].
  split; [|split; [exact Q1|split; [rewrite Q2; reflexivity|exact HHR]]].
  f_equal. f_equal. cbn [get_comp x_comp set_comp set_cnts set_pace set_prog]. unfold set_name, set_cnr. cbn [c_nr c_name c_crc c_id c_index c_type]. f_equal. cbn [skipn].
  do 7 (destruct name as [|? name]; [discriminate L7|]). destruct name; [|discriminate L7]. reflexivity.
Qed.
Lemma up_next size tab silent nr d data ticks t s h es s' o : 1 <= nr -> nr < 256 -> listening tab silent nr -> nth (hidx HBlockAck) (x_hand s) None = Some h ->
  c_nr (x_comp s) = nr -> x_bytes s < 65536 -> N.of_nat (length data) <= x_bytes s ->
  xl_run size [LRx tab silent nr (0x1A :: d) (HCall (AUpload data (N.of_nat (length data)) ticks) (fun _ => HFin ERR_OK t 0))] s = Some (es, s', o) ->
  o = [XCalled HBlockAck h (x_comp s); XFrame (ctl_id nr) [0x15; 0; 0; 0; 0; 0; 0; 0]; up_end nr (x_bytes s) 1].
Proof.
  intros N1 N2 LI HH HN SZ LE H. cbn [xl_run xl_step] in H.
  apply xbind_inv in H as (e2 & s2 & o3 & o4 & E2 & H & ->). injection H as <- <- <-. rewrite app_nil_r.
  match type of E2 with async_rx _ _ _ _ ?d ?p ?st = _ => destruct (rx_listening size tab silent nr d p st LI) as (q2 & _ & X); rewrite X in E2; clear X end.
  cbn [nth] in E2. code E2 26. unfold ul_block_ackn in E2. apply xbind_inv in E2 as (r & s5 & o9 & o10 & E2 & H2 & ->). injection H2 as <- <- <-.
  unfold call_handler in E2. rewrite xbind_get, HH, xbind_observe in E2. match type of E2 with match ?m with _ => _ end = _ => destruct m as [[[b s6] o11]|] eqn:ER; [|discriminate] end. injection E2 as <- <- <-.
  cbn [hrun] in ER. apply xbind_inv in ER as (a & s7 & o12 & o13 & ER & EF & ->). injection EF as <- <- <-.
  cbn [acall_run] in ER. apply xbind_inv in ER as (ok & s8 & o14 & o15 & ER & EF & ->). destruct ok; [|discriminate]. injection EF as <- <- <-.
  apply (upload_stale _ _ _ nr) in ER; try assumption. rewrite ER. reflexivity.
Qed.
(** the pacing test at the end of the clock range never succeeds *)
Lemma up_stuck data len msg old s : forall ticks, Forall (fun t => t < 4294967296) ticks -> u32 (old + x_delay s) = 4294967295 ->
  ul_loop data len msg old ticks s = Some (false, s, []).
Proof.
  induction ticks as [|t r IH]; intros F E; cbn [ul_loop]; [reflexivity|]. inversion F; subst. rewrite xbind_get, E. destruct (_ <? t) eqn:EL; [lia|]. apply IH; assumption.
Qed.
Lemma up_prefix data s ticks nr b s' obs : N.of_nat (length data) < 65536 -> 1 <= nr -> nr < 256 -> c_nr (x_comp s) = nr -> x_bytes s = 0 ->
  upload data (N.of_nat (length data)) ticks s = Some (b, s', obs) -> exists rest, obs ++ rest = up_frames nr data.
Proof. intros A B C D E H. apply (upload_spec _ _ _ nr) in H; auto. destruct b; [|exact H]. destruct H as (-> & _). exists []. apply app_nil_r. Qed.
Lemma pieces_concat : forall f l, (length l < f)%nat -> exists n, concat (pieces f l) = l ++ repeat 0 n /\ Forall (fun m => length m = 7%nat) (pieces f l) /\ (n < 7 \/ l = [] /\ n = 7)%nat.
Proof.
  induction f as [|f IH]; intros l H; [lia|]. cbn [pieces]. destruct (length l <=? 7)%nat eqn:E.
  - apply Nat.leb_le in E. exists (7 - length l)%nat. cbn [concat]. rewrite app_nil_r. split; [reflexivity|]. split; [constructor; [rewrite app_length, repeat_length; lia|constructor]|].
    destruct l; [right; auto|left; cbn [length]; lia].
  - apply Nat.leb_gt in E. destruct (IH (skipn 7 l)) as (n & C & F & B); [rewrite skipn_length; lia|]. exists n. cbn [concat]. rewrite C, app_assoc, firstn_skipn. split; [reflexivity|].
    split; [constructor; [rewrite firstn_length; lia|exact F]|]. destruct B as [B|[B _]]; [auto|]. apply (f_equal (@length byte)) in B. rewrite skipn_length in B. cbn in B. lia.
Qed.
Lemma up_concat data : exists n, concat (up_msgs data) = data ++ repeat 0 n /\ Forall (fun m => length m = 7%nat) (up_msgs data) /\ (n < 7 \/ data = [] /\ n = 7)%nat.
Proof. apply pieces_concat. lia. Qed.
Lemma regs_first size ops es s obs : xl_run size ops (xst_zero size) = Some (es, s, obs) ->
  (forall i k h, nth_error ops i = Some (LReg k h) -> nth_error es i = Some (reg_result (firstn i ops) k)) /\
  (forall k h c, In (XCalled k h c) obs -> first_reg k ops = Some h).
Proof. intro H. destruct (regs_run _ _ _ _ _ H) as ((_ & _ & A) & B). auto. Qed.
Lemma regs_kept size ops es s obs : xl_run size ops (xst_zero size) = Some (es, s, obs) -> forall k, nth (hidx k) (x_hand s) None = first_reg k ops.
Proof. intro H. destruct (regs_run _ _ _ _ _ H) as ((_ & A & _) & B). exact A. Qed.
