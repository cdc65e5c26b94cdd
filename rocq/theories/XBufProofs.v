From Verif Require Import Words WordsFacts Ring ErrModel XBufModel XBufSpec.

Record xrel (size : nat) (l : list byte) (b : xbuf) : Prop := {
  xr_len : length (xb_data b) = size;
  xr_read : (xb_read b < size)%nat;
  xr_nr : xb_nr b = length l;
  xr_le : (length l <= size)%nat;
  xr_write : xb_write b = ((xb_read b + length l) mod size)%nat;
  xr_holds : holds size (xb_data b) (xb_read b) l
}.

Lemma xrel_zero : forall size, (0 < size)%nat -> xrel size [] (xb_zero size).
Proof.
  intros size H. constructor; cbn; auto; try lia.
  - apply repeat_length.
  - rewrite Nat.mod_0_l; lia.
  - apply holds_nil.
Qed.

Lemma inc_mod : forall i size, (i < size)%nat ->
  (if (i <? size - 1)%nat then (i + 1)%nat else O) = ((i + 1) mod size)%nat.
Proof.
  intros i size H. rewrite modfact by lia.
  destruct (i <? size - 1)%nat eqn:E1; destruct (i + 1 <? size)%nat eqn:E2; lia.
Qed.

Lemma xadd_rel : forall size l b x, xrel size l b ->
  exists b', xb_add size b x = Some (b', if (length l <? size)%nat then ERR_OK else ERR_BUF_OVERFLOW)
    /\ xrel size (if (length l <? size)%nat then l ++ [x] else l) b'
    /\ xb_rstore b' = xb_rstore b /\ xb_nstore b' = xb_nstore b.
Proof.
  intros size l b x R. pose proof R as R0. destruct R as [Rl Rr Rn Re Rw Rh].
  unfold xb_add. rewrite Rn.
  destruct (length l <? size)%nat eqn:E.
  - destruct (size <=? length l)%nat eqn:E2; [lia|].
    assert (Hw : (xb_write b < length (xb_data b))%nat).
    { rewrite Rw, Rl. apply Nat.mod_upper_bound. lia. }
    destruct (upd_some _ _ _ x Hw) as [d Hd]. rewrite Hd.
    eexists. split; [reflexivity|]. split; [|auto].
    constructor; cbn; auto.
    + rewrite (upd_length _ _ _ _ _ Hd). exact Rl.
    + rewrite app_length. cbn. lia.
    + rewrite app_length. cbn. lia.
    + rewrite inc_mod by lia. rewrite Rw, Nat.add_mod_idemp_l by lia.
      rewrite app_length. cbn. f_equal. lia.
    + eapply holds_app; [exact Rr| | exact Rh | exact Rw | exact Hd]. lia.
  - destruct (size <=? length l)%nat eqn:E2; [|lia]. eauto.
Qed.

Lemma xget_rel : forall size l b, xrel size l b ->
  match l with
  | [] => xb_get size b = Some (b, (ERR_BUF_UNDERFLOW, None))
  | x :: r => exists b', xb_get size b = Some (b', (ERR_OK, Some x)) /\ xrel size r b'
       /\ xb_rstore b' = xb_rstore b /\ xb_nstore b' = xb_nstore b
       /\ xb_data b' = xb_data b /\ xb_write b' = xb_write b
  end.
Proof.
  intros size l b R. destruct R as [Rl Rr Rn Re Rw Rh]. unfold xb_get. rewrite Rn.
  destruct l as [|x r]; [reflexivity|].
  cbn [length Nat.eqb].
  rewrite (holds_head _ _ _ _ _ _ Rr Rh).
  eexists. split; [reflexivity|]. cbn in Re, Rw.
  split; [|cbn; auto].
  constructor; cbn; auto; try lia.
  - rewrite inc_mod by lia. apply Nat.mod_upper_bound. lia.
  - rewrite inc_mod by lia. rewrite Rw, Nat.add_mod_idemp_l by lia. f_equal. lia.
  - rewrite inc_mod by lia. eapply holds_tail; [exact Rr| |exact Rh]. lia.
Qed.

Lemma xchars_rel : forall size n l b, xrel size l b ->
  exists b', xrel size (skipn n l) b'
   /\ xb_rstore b' = xb_rstore b /\ xb_nstore b' = xb_nstore b
   /\ xb_data b' = xb_data b /\ xb_write b' = xb_write b
   /\ xb_get_chars size b n = Some (b', (if (n <=? length l)%nat then ERR_OK else ERR_BUF_UNDERFLOW, firstn n l)).
Proof.
  intros size n. induction n as [|n IH]; intros l b R.
  - exists b. cbn. auto 10.
  - cbn [xb_get_chars]. pose proof (xget_rel size l b R) as G.
    destruct l as [|x r].
    + rewrite G. exists b. cbn. auto 10.
    + destruct G as (b1 & G & R1 & E1 & E2 & E3 & E4). rewrite G.
      destruct (IH r b1 R1) as (b2 & R2 & F1 & F2 & F3 & F4 & G2). rewrite G2.
      exists b2. cbn [skipn firstn length Nat.leb]. repeat split; try congruence; apply R2.
Qed.

Lemma hex_digit_table : forall c, hex_digit c = lookup digit_table c.
Proof.
  intro c. destruct (c <? 128) eqn:E.
  - pose proof (below_all (fun c => match hex_digit c, lookup digit_table c with
                 | Some a, Some b => a =? b | None, None => true | _, _ => false end) 128
                 ltac:(vm_compute; reflexivity) c ltac:(lia)) as H.
    cbv beta in H. destruct (hex_digit c), (lookup digit_table c); try discriminate; auto.
    f_equal. lia.
  - unfold hex_digit, digit_table, lookup.
    repeat match goal with |- context [?a =? c] => destruct (a =? c) eqn:?; [lia|] end.
    repeat match goal with |- context [?a && ?b] => destruct (a && b) eqn:?; [lia|] end. reflexivity.
Qed.

Lemma hexchars_digits : forall cs v, hexchars v cs = fold_left (fun v d => u32 (16 * v + d)) (digits cs) v.
Proof.
  intros cs. induction cs as [|c r IH]; intro v; cbn [hexchars digits]; [reflexivity|].
  rewrite hex_digit_table. destruct (lookup digit_table c) as [d|]; [|reflexivity].
  cbn [fold_left]. rewrite IH. f_equal. rewrite N.shiftl_mul_pow2. change (2 ^ 4) with 16.
  unfold u32. rewrite N.add_mod_idemp_l by lia. f_equal. lia.
Qed.

Lemma fold_weigh : forall ds v, (fold_left (fun v d => u32 (16 * v + d)) ds v) mod 4294967296
   = (v * 16 ^ N.of_nat (length ds) + weigh ds) mod 4294967296.
Proof.
  induction ds as [|d r IH]; intro v.
  - cbn. rewrite N.mul_1_r, N.add_0_r. reflexivity.
  - cbn [fold_left weigh length]. rewrite IH. unfold u32.
    rewrite Nat2N.inj_succ, N.pow_succ_r by lia.
    rewrite <- N.add_mod_idemp_l by lia. rewrite N.mul_mod_idemp_l by lia.
    rewrite N.add_mod_idemp_l by lia. f_equal. ring.
Qed.

Lemma lookup_lt : forall c d, lookup digit_table c = Some d -> d < 16.
Proof.
  intros c d. unfold digit_table, lookup.
  repeat match goal with |- context [?a =? c] => destruct (a =? c) end;
  intro H; try discriminate H; injection H as <-; lia.
Qed.

Lemma weigh_digits_lt : forall cs, weigh (digits cs) < 16 ^ N.of_nat (length (digits cs)).
Proof.
  induction cs as [|c r IH]; cbn [digits]; [cbn; lia|].
  destruct (lookup digit_table c) as [d|] eqn:E; [|cbn; lia].
  cbn [weigh length]. rewrite Nat2N.inj_succ, N.pow_succ_r by lia.
  pose proof (lookup_lt _ _ E). nia.
Qed.

Lemma digits_length : forall cs, (length (digits cs) <= length cs)%nat.
Proof. induction cs as [|c r IH]; cbn [digits length]; [lia|]. destruct (lookup digit_table c); cbn [length]; lia. Qed.

Lemma hexvalue_lt : forall cs n, (length cs <= n)%nat -> hexvalue cs < 16 ^ N.of_nat n.
Proof.
  intros cs n H. unfold hexvalue. eapply N.lt_le_trans; [apply weigh_digits_lt|].
  apply N.pow_le_mono_r; [lia|]. pose proof (digits_length cs). lia.
Qed.

(** the C conversion, modulo the width of the result *)
Lemma hexchars_mod : forall cs, (hexchars 0 cs) mod 4294967296 = hexvalue cs mod 4294967296.
Proof.
  intro cs. rewrite hexchars_digits, fold_weigh. unfold hexvalue.
  reflexivity.
Qed.

Lemma hexchars_lt : forall cs v, v < 4294967296 -> hexchars v cs < 4294967296.
Proof.
  induction cs as [|c r IH]; intros v H; cbn [hexchars]; [exact H|]. destruct (hex_digit c); [|exact H].
  apply IH. unfold u32. apply N.mod_lt. lia.
Qed.

Lemma hexchars_exact : forall cs, (length cs <= 8)%nat -> hexchars 0 cs = hexvalue cs.
Proof.
  intros cs H. pose proof (hexchars_mod cs) as M.
  rewrite N.mod_small in M by (apply hexchars_lt; lia).
  rewrite N.mod_small in M; [exact M|].
  pose proof (hexvalue_lt cs 8 H) as L. change (16 ^ N.of_nat 8) with 4294967296 in L. exact L.
Qed.

(** hexadecimal text written with any mixture of cases *)
Lemma spelled_lookup : forall c d, spelled c d -> lookup digit_table c = Some d.
Proof.
  intros c d [c' d' H]. unfold digit_table in H.
  repeat (destruct H as [H|H]; [injection H as <- <-; reflexivity|]). destruct H.
Qed.

Lemma spelled_digits : forall cs ds, Forall2 spelled cs ds -> digits cs = ds.
Proof.
  induction 1 as [|c d cs ds H F IH]; cbn [digits]; [reflexivity|].
  rewrite (spelled_lookup _ _ H). f_equal. exact IH.
Qed.

Lemma xhex_rel : forall size n l b (cast : N -> N), xrel size l b -> (n <= 4)%nat ->
  (forall v, v < 16 ^ N.of_nat n -> cast v = v) ->
  exists b', xrel size (fst (lift_hex n l)) b'
   /\ xb_rstore b' = xb_rstore b /\ xb_nstore b' = xb_nstore b
   /\ xb_data b' = xb_data b /\ xb_write b' = xb_write b
   /\ exists e v, snd (lift_hex n l) = XVal e v /\ xb_get_hex size n cast b = Some (b', (e, v)).
Proof.
  intros size n l b cast R Hn Hc.
  destruct (xchars_rel size n l b R) as (b' & R' & F1 & F2 & F3 & F4 & G).
  unfold xb_get_hex. rewrite G. unfold lift_hex.
  exists b'. destruct (n <=? length l)%nat eqn:E; cbn [fst snd].
  - split; [exact R'|]. repeat (split; [assumption|]). cbn [N.eqb].
    eexists. eexists. split; [reflexivity|].
    assert (Hl : (length (firstn n l) <= n)%nat) by (rewrite firstn_length; lia).
    rewrite hexchars_exact by lia.
    rewrite Hc; [reflexivity|]. apply hexvalue_lt. exact Hl.
  - rewrite skipn_all2 in R' by lia. split; [exact R'|]. repeat (split; [assumption|]).
    eexists. eexists. split; reflexivity.
Qed.

Lemma xaddloop_rel : forall size src l b, xrel size l b -> (length l + length src <= size)%nat ->
  exists b', xb_add_loop size b src = Some (b', ERR_OK) /\ xrel size (l ++ src) b'.
Proof.
  intros size src. induction src as [|x r IH]; intros l b R H; cbn [xb_add_loop length] in *.
  - exists b. rewrite app_nil_r. auto.
  - destruct (xadd_rel size l b x R) as (b1 & G & R1 & _).
    destruct (length l <? size)%nat eqn:E; [|lia]. rewrite G. cbn [N.eqb].
    change (ERR_OK =? ERR_OK) with true. cbv iota.
    destruct (IH (l ++ [x]) b1 R1) as (b2 & G2 & R2); [rewrite app_length; cbn; lia|].
    exists b2. rewrite <- app_assoc in R2. auto.
Qed.

Lemma xremove_rel : forall size l b n, xrel size l b ->
  let r := xb_remove size b n in
  snd r = (if (n <=? length l)%nat then ERR_OK else ERR_BUF_UNDERFLOW)
  /\ xrel size (if (n <=? length l)%nat then firstn (length l - n) l else l) (fst r).
Proof.
  intros size l b n R. pose proof R as R0. destruct R as [Rl Rr Rn Re Rw Rh].
  unfold xb_remove. rewrite Rn.
  destruct (n <=? length l)%nat eqn:E.
  - destruct (length l <? n)%nat eqn:E2; [lia|]. cbn [fst snd]. split; [reflexivity|].
    assert (Hf : length (firstn (length l - n) l) = (length l - n)%nat) by (rewrite firstn_length; lia).
    constructor; cbn; rewrite ?Hf; auto; try lia.
    + rewrite Rw. rewrite !modfact by lia.
      destruct (xb_read b + length l <? size)%nat eqn:E3; destruct (xb_read b + (length l - n) <? size)%nat eqn:E4;
      match goal with |- context [if ?c then _ else _] => destruct c eqn:? end; lia.
    + apply holds_firstn. exact Rh.
  - destruct (length l <? n)%nat eqn:E2; [|lia]. cbn. auto.
Qed.

Lemma step_rel : forall size l b o, xrel size l b -> no_restore o = true ->
  exists b', xb_step size b o = Some (b', snd (list_step size l o)) /\ xrel size (fst (list_step size l o)) b'.
Proof.
  intros size l b o R Hn. destruct o; cbn [xb_step list_step no_restore] in *; try discriminate.
  - destruct (xadd_rel size l b x R) as (b' & G & R' & _). rewrite G.
    exists b'. destruct (length l <? size)%nat; auto.
  - pose proof (xget_rel size l b R) as G. destruct l as [|x r].
    + rewrite G. exists b. auto.
    + destruct G as (b' & G & R' & _). rewrite G. exists b'. auto.
  - destruct (xhex_rel size 2 l b u8 R) as (b' & R' & _ & _ & _ & _ & e & v & E & G); [lia| |].
    { intros v Hv. apply N.mod_small. exact Hv. }
    unfold xb_get_str_byte. rewrite G, E. exists b'. auto.
  - destruct (xhex_rel size 2 l b u16 R) as (b' & R' & _ & _ & _ & _ & e & v & E & G); [lia| |].
    { intros v Hv. apply N.mod_small. change (16 ^ N.of_nat 2) with 256 in Hv. lia. }
    unfold xb_get_str_uint16. rewrite G, E. exists b'. auto.
  - destruct (xhex_rel size 4 l b u32 R) as (b' & R' & _ & _ & _ & _ & e & v & E & G); [lia| |].
    { intros v Hv. apply N.mod_small. change (16 ^ N.of_nat 4) with 65536 in Hv. lia. }
    unfold xb_get_str_uint32. rewrite G, E. exists b'. auto.
  - exists b. unfold xb_len. rewrite (xr_nr _ _ _ R). auto.
  - unfold xb_add_str. rewrite (xr_nr _ _ _ R). pose proof (xr_le _ _ _ R) as Hle.
    destruct (length l + length src <? size)%nat eqn:E.
    + destruct (length src <? size - length l)%nat eqn:E2; [|lia].
      destruct (xaddloop_rel size src l b R) as (b' & G & R'); [lia|]. rewrite G. exists b'. auto.
    + destruct (length src <? size - length l)%nat eqn:E2; [lia|]. exists b. auto.
  - pose proof (xremove_rel size l b num R) as [E R']. destruct (xb_remove size b num) as [b' e].
    cbn in E, R'. subst e. exists b'. destruct (num <=? length l)%nat; auto.
  - exists (xb_store b). split; [reflexivity|]. destruct R. constructor; cbn; auto.
Qed.

Theorem run_rel : forall size ops l b, xrel size l b -> forallb no_restore ops = true ->
  exists b', xb_run size b ops = Some (b', snd (list_run size l ops)) /\ xrel size (fst (list_run size l ops)) b'.
Proof.
  intros size ops. induction ops as [|o ops IH]; intros l b R Hn; cbn [xb_run list_run].
  - exists b. auto.
  - cbn in Hn. apply andb_true_iff in Hn as [Ho Hn].
    destruct (step_rel size l b o R Ho) as (b1 & G & R1). rewrite G.
    destruct (list_step size l o) as [l1 out]. cbn [fst snd] in *.
    destruct (IH l1 b1 R1 Hn) as (b2 & G2 & R2). rewrite G2.
    destruct (list_run size l1 ops) as [l2 outs]. cbn [fst snd] in *. eauto.
Qed.

Theorem buffer_is_fifo : forall size ops, (0 < size)%nat -> forallb no_restore ops = true ->
  exists b, xb_run size (xb_zero size) ops = Some (b, snd (list_run size [] ops))
        /\ xb_len b = length (fst (list_run size [] ops)) /\ (xb_len b <= size)%nat.
Proof.
  intros size ops H Hn. destruct (run_rel size ops [] _ (xrel_zero size H) Hn) as (b & G & R).
  exists b. split; [exact G|]. unfold xb_len. rewrite (xr_nr _ _ _ R). split; [reflexivity|]. apply (xr_le _ _ _ R).
Qed.

(** checkpoint and rollback *)
Lemma read_step_keeps : forall size l b o, xrel size l b -> only_reads o = true ->
  exists b', xb_step size b o = Some (b', snd (list_step size l o)) /\ xrel size (fst (list_step size l o)) b'
   /\ xb_rstore b' = xb_rstore b /\ xb_nstore b' = xb_nstore b /\ xb_data b' = xb_data b /\ xb_write b' = xb_write b.
Proof.
  intros size l b o R Hn. destruct o; cbn [xb_step list_step only_reads] in *; try discriminate.
  - pose proof (xget_rel size l b R) as G. destruct l as [|x r].
    + rewrite G. exists b. auto 10.
    + destruct G as (b' & G & R' & H1 & H2 & H3 & H4). rewrite G. exists b'. auto 10.
  - destruct (xhex_rel size 2 l b u8 R) as (b' & R' & H1 & H2 & H3 & H4 & e & v & E & G); [lia| |].
    { intros v Hv. apply N.mod_small. exact Hv. }
    unfold xb_get_str_byte. rewrite G, E. exists b'. auto 10.
  - destruct (xhex_rel size 2 l b u16 R) as (b' & R' & H1 & H2 & H3 & H4 & e & v & E & G); [lia| |].
    { intros v Hv. apply N.mod_small. change (16 ^ N.of_nat 2) with 256 in Hv. lia. }
    unfold xb_get_str_uint16. rewrite G, E. exists b'. auto 10.
  - destruct (xhex_rel size 4 l b u32 R) as (b' & R' & H1 & H2 & H3 & H4 & e & v & E & G); [lia| |].
    { intros v Hv. apply N.mod_small. change (16 ^ N.of_nat 4) with 65536 in Hv. lia. }
    unfold xb_get_str_uint32. rewrite G, E. exists b'. auto 10.
  - exists b. unfold xb_len. rewrite (xr_nr _ _ _ R). auto 10.
Qed.

Lemma reads_keep : forall size ops l b, xrel size l b -> forallb only_reads ops = true ->
  exists b', xb_run size b ops = Some (b', snd (list_run size l ops)) /\ xrel size (fst (list_run size l ops)) b'
   /\ xb_rstore b' = xb_rstore b /\ xb_nstore b' = xb_nstore b /\ xb_data b' = xb_data b /\ xb_write b' = xb_write b.
Proof.
  intros size ops. induction ops as [|o ops IH]; intros l b R Hn; cbn [xb_run list_run].
  - exists b. auto 10.
  - cbn in Hn. apply andb_true_iff in Hn as [Ho Hn].
    destruct (read_step_keeps size l b o R Ho) as (b1 & G & R1 & H1 & H2 & H3 & H4). rewrite G.
    destruct (list_step size l o) as [l1 out]. cbn [fst snd] in *.
    destruct (IH l1 b1 R1 Hn) as (b2 & G2 & R2 & I1 & I2 & I3 & I4). rewrite G2.
    destruct (list_run size l1 ops) as [l2 outs]. cbn [fst snd] in *.
    exists b2. repeat split; try congruence; apply R2.
Qed.

Lemma xb_run_app : forall size ops1 ops2 b b1 o1, xb_run size b ops1 = Some (b1, o1) ->
  xb_run size b (ops1 ++ ops2) = match xb_run size b1 ops2 with Some (b2, o2) => Some (b2, o1 ++ o2) | None => None end.
Proof.
  intros size ops1. induction ops1 as [|o r IH]; intros ops2 b b1 o1 H; cbn in *.
  - injection H as -> <-. destruct (xb_run size b1 ops2) as [[? ?]|]; reflexivity.
  - destruct (xb_step size b o) as [[b' out]|]; [|discriminate].
    destruct (xb_run size b' r) as [[b'' outs]|] eqn:E; [|discriminate]. injection H as -> <-.
    rewrite (IH _ _ _ _ E). destruct (xb_run size b1 ops2) as [[? ?]|]; reflexivity.
Qed.

Lemma list_run_app : forall size ops1 ops2 l,
  list_run size l (ops1 ++ ops2) =
  (fst (list_run size (fst (list_run size l ops1)) ops2), snd (list_run size l ops1) ++ snd (list_run size (fst (list_run size l ops1)) ops2)).
Proof.
  intros size ops1. induction ops1 as [|o r IH]; intros ops2 l; cbn [app list_run].
  - cbn [fst snd app]. destruct (list_run size l ops2); reflexivity.
  - destruct (list_step size l o) as [l1 out]. rewrite IH.
    destruct (list_run size l1 r) as [l2 outs]; reflexivity.
Qed.

(** after [pre], a checkpoint, reads, and rollback, any further operations behave as if the reads had not happened *)
Theorem rollback_replays : forall size pre reads post, (0 < size)%nat ->
  forallb no_restore pre = true -> forallb only_reads reads = true -> forallb no_restore post = true ->
  let l := fst (list_run size [] pre) in
  exists b, xb_run size (xb_zero size) (pre ++ XStore :: reads ++ XRestore :: post)
   = Some (b, snd (list_run size [] pre) ++ XErr ERR_OK :: snd (list_run size l reads) ++ XErr ERR_OK :: snd (list_run size l post)).
Proof.
  intros size pre reads post H Hp Hr Ho l.
  destruct (run_rel size pre [] _ (xrel_zero size H) Hp) as (b0 & G0 & R0).
  rewrite (xb_run_app _ _ _ _ _ _ G0). fold l in R0.
  cbn [xb_run xb_step].
  assert (R1 : xrel size l (xb_store b0)) by (destruct R0; constructor; cbn; auto).
  destruct (reads_keep size reads l _ R1 Hr) as (b2 & G2 & R2 & I1 & I2 & I3 & I4).
  rewrite (xb_run_app _ _ _ _ _ _ G2). cbn [xb_run xb_step].
  assert (R3 : xrel size l (xb_restore b2)).
  { cbn in I1, I2, I3, I4. destruct R0 as [Rl Rd Rn Re Rw Rh].
    constructor; cbn; rewrite ?I1, ?I2, ?I3, ?I4; auto. }
  destruct (run_rel size post l _ R3 Ho) as (b4 & G4 & R4). rewrite G4.
  eexists. reflexivity.
Qed.

(** with an addition between checkpoint and rollback the added byte is lost, and a later one is read in its place *)
Theorem rollback_refuted : forall size x y, (3 <= size)%nat -> x <> y ->
  exists b, xb_run size (xb_zero size) [XStore; XAdd x; XRestore; XLen; XAdd y; XGet]
    = Some (b, [XErr 0; XErr 0; XErr 0; XLenIs 0; XErr 0; XVal 0 (Some x)]).
Proof.
  intros size x y H Hxy. destruct size as [|[|[|k]]]; try lia. eexists.
  unfold xb_run, xb_step, xb_store, xb_restore, xb_add, xb_get, xb_len, xb_zero. cbn. reflexivity.
Qed.

Theorem hexchars_spelled : forall cs ds, Forall2 spelled cs ds -> (length cs <= 8)%nat ->
  hexchars 0 cs = weigh ds.
Proof.
  intros cs ds F H. rewrite hexchars_exact by exact H. unfold hexvalue. rewrite (spelled_digits _ _ F). reflexivity.
Qed.

Theorem hex_stream : forall size pre, (0 < size)%nat -> forallb no_restore pre = true ->
  let l := fst (list_run size [] pre) in
  forall o n, (o = XHexByte /\ n = 2 \/ o = XHex16 /\ n = 2 \/ o = XHex32 /\ n = 4)%nat ->
  (n <= length l)%nat ->
  exists b, xb_run size (xb_zero size) (pre ++ [o; XLen])
   = Some (b, snd (list_run size [] pre) ++ [XVal ERR_OK (Some (hexvalue (firstn n l))); XLenIs (length l - n)]).
Proof.
  intros size pre H Hp l o n Ho Hn.
  assert (Hno : forallb no_restore (pre ++ [o; XLen]) = true).
  { rewrite forallb_app, Hp. destruct Ho as [[-> _]|[[-> _]|[-> _]]]; reflexivity. }
  destruct (run_rel size _ [] _ (xrel_zero size H) Hno) as (b & G & _).
  exists b. rewrite G. do 2 f_equal. rewrite list_run_app. cbn [snd]. f_equal. fold l.
  assert (E : list_step size l o = (skipn n l, XVal ERR_OK (Some (hexvalue (firstn n l))))).
  { destruct Ho as [[-> ->]|[[-> ->]|[-> ->]]]; cbn [list_step]; unfold lift_hex;
    match goal with |- context [(?a <=? ?b)%nat] => destruct (a <=? b)%nat eqn:E; [reflexivity|lia] end. }
  cbn [list_run]. rewrite E. cbn [list_step snd]. rewrite skipn_length. reflexivity.
Qed.
