From Verif Require Import Words WordsFacts Bits Ring ErrModel ErrSpec.

Lemma full_entry_spec : forall m, full_entry m = queue_full_entry m.
Proof. intro m. unfold full_entry, queue_full_entry. f_equal; vm_compute; reflexivity. Qed.

Lemma entry_eq : forall c i p g s m,
  Entry c p m i (u8 (s + N.shiftl g 4)) = entry_of c i p g s m.
Proof.
  intros. unfold entry_of. rewrite N.shiftl_mul_pow2.
  change (2 ^ 4) with 16. rewrite (N.mul_comm g). reflexivity.
Qed.

(** refinement relation *)
Record rel (size : nat) (reads : nat) (armed : bool) (s : fifo) (q : equeue) : Prop := {
  r_started : q_ready q = fst s;
  r_len : length (q_slots q) = size;
  r_out : q_out q = (reads mod size)%nat;
  r_count : q_count q = length (snd s);
  r_le : (length (snd s) <= size)%nat;
  r_fresh : fst s = false -> snd s = [] /\ q_in q = O /\ q_out q = O /\ armed = false
            /\ q_slots q = repeat blank_entry size /\ q_count q = O;
  r_in : q_in q = if armed then size else ((q_out q + q_count q) mod size)%nat;
  r_holds : holds size (q_slots q) (q_out q) (snd s)
}.

Lemma rel_init : forall size, (2 <= size)%nat -> rel size 0 false (false, []) (eq_reset size).
Proof.
  intros size H. constructor; cbn; auto.
  - apply repeat_length.
  - rewrite Nat.mod_0_l; lia.
  - lia.
  - intros _. repeat split.
  - rewrite Nat.mod_0_l; lia.
  - intros k Hk. cbn in Hk. lia.
Qed.

Lemma send_rel : forall size reads armed s q c i p g sg m,
  (2 <= size)%nat -> rel size reads armed s q ->
  let s1 := fst (bounded_step size s (ESend c i p g sg m)) in
  let out := snd (bounded_step size s (ESend c i p g sg m)) in
  if is_fatal p || (size <? length (snd s) + 2)%nat then
    exists q', eq_step size q (ESend c i p g sg m) = Some (q', out) /\ rel size reads armed s1 q'
  else if armed then eq_step size q (ESend c i p g sg m) = None
  else exists q', eq_step size q (ESend c i p g sg m) = Some (q', out)
       /\ rel size reads ((length (snd s) + 2 =? size)%nat && (reads mod size =? 0)%nat) s1 q'.
Proof.
  intros size reads armed [started l] q c i p g sg m H2 R.
  destruct R as [Rs Rl Ro Rc Rle Rf Rin Rh]. cbn [fst snd] in *.
  pose (q1 := if q_ready q then q else eq_init size).
  assert (Hq1 : q_ready q1 = true /\ q_slots q1 = q_slots q /\ q_out q1 = q_out q
                /\ q_count q1 = q_count q /\ q_in q1 = q_in q).
  { unfold q1. destruct (q_ready q) eqn:Er; [auto|].
    destruct (Rf (eq_sym Rs)) as (E1 & E2 & E3 & E4 & E5 & E6).
    cbn. rewrite E2, E3, E5, E6. auto. }
  destruct Hq1 as (Hr & Hsl & Hou & Hct & Hin).
  assert (Hos : (q_out q < size)%nat).
  { rewrite Ro. apply Nat.mod_upper_bound. lia. }
  unfold eq_step, eq_send_full, bounded_step. fold q1. cbn beta iota delta [fst snd].
  unfold is_fatal, LVL_FATAL.
  assert (Harm : started = false -> armed = false) by (intros ->; apply Rf; reflexivity).
  destruct (p =? 15) eqn:Ep; cbn [orb fst snd].
  { exists q1. split; [reflexivity|].
    constructor; cbn; rewrite ?Hsl, ?Hou, ?Hct, ?Hin; auto; discriminate. }
  rewrite Hct, Rc.
  destruct (size <? length l + 2)%nat eqn:Efull.
  { exists q1. split.
    - destruct (length l + 2 <? size)%nat eqn:E1; [lia|].
      destruct (length l + 2 =? size)%nat eqn:E2; [lia|]. reflexivity.
    - destruct (length l + 2 <? size)%nat eqn:E1; [lia|].
      destruct (length l + 2 =? size)%nat eqn:E2; [lia|].
      constructor; cbn; rewrite ?Hsl, ?Hou, ?Hct, ?Hin; auto; discriminate. }
  rewrite Hsl, Hin, Rin, Hou, Rc.
  destruct armed.
  { rewrite upd_none by lia. reflexivity. }
  rewrite entry_eq.
  assert (Hi : ((q_out q + length l) mod size < length (q_slots q))%nat).
  { rewrite Rl. apply Nat.mod_upper_bound. lia. }
  destruct (upd_some _ (q_slots q) _ (entry_of c i p g sg m) Hi) as [sl1 Hu1].
  rewrite Hu1.
  assert (Hl1 : length sl1 = size) by (rewrite (upd_length _ _ _ _ _ Hu1); exact Rl).
  assert (Hlt : (length l <? size)%nat = true) by lia. rewrite Hlt.
  assert (Hh1 : holds size sl1 (q_out q) (l ++ [entry_of c i p g sg m])).
  { eapply holds_app; [exact Hos| | exact Rh | reflexivity | exact Hu1]. lia. }
  replace (size =? length l + 2)%nat with (length l + 2 =? size)%nat by lia.
  destruct (length l + 2 =? size)%nat eqn:Eeq.
  - destruct (length l + 2 <? size)%nat eqn:E1; [lia|]. cbn [fst snd andb].
    assert (Hi2 : (((q_out q + length l) mod size + 1) mod size < length sl1)%nat).
    { rewrite Hl1. apply Nat.mod_upper_bound. lia. }
    destruct (upd_some _ sl1 _ (full_entry m) Hi2) as [sl2 Hu2].
    rewrite Hu2. rewrite full_entry_spec in Hu2.
    assert (Hlt2 : (S (length l) <? size)%nat = true) by lia. rewrite Hlt2.
    eexists. split; [reflexivity|].
    assert (Hl2 : length sl2 = size) by (rewrite (upd_length _ _ _ _ _ Hu2); exact Hl1).
    constructor; cbn [fst snd q_ready q_slots q_out q_count q_in]; auto.
    + rewrite app_length. cbn. lia.
    + rewrite app_length. cbn. lia.
    + discriminate.
    + rewrite Nat.add_mod_idemp_l by lia.
      rewrite <- Ro. rewrite !modfact by lia. clear - H2 Hos Eeq.
      destruct (q_out q =? 0)%nat eqn:Eo.
      * repeat match goal with |- context [(?a <? ?b)%nat] => destruct (a <? b)%nat eqn:? end; lia.
      * repeat match goal with |- context [(?a <? ?b)%nat] => destruct (a <? b)%nat eqn:? end; lia.
    + replace (l ++ [entry_of c i p g sg m; queue_full_entry m])
        with ((l ++ [entry_of c i p g sg m]) ++ [queue_full_entry m]) by (rewrite <- app_assoc; reflexivity).
      eapply holds_app; [exact Hos| | exact Hh1 | | exact Hu2].
      * rewrite app_length. cbn. lia.
      * rewrite app_length. cbn [length]. rewrite Nat.add_mod_idemp_l by lia. f_equal. lia.
  - destruct (length l + 2 <? size)%nat eqn:E1; [|lia]. cbn [fst snd andb].
    eexists. split; [reflexivity|].
    constructor; cbn [fst snd q_ready q_slots q_out q_count q_in]; auto.
    + rewrite app_length. cbn. lia.
    + rewrite app_length. cbn. lia.
    + discriminate.
    + rewrite Nat.add_mod_idemp_l by lia. f_equal. lia.
Qed.

Lemma get_rel : forall size reads armed s q,
  (2 <= size)%nat -> rel size reads armed s q ->
  let s1 := fst (fifo_step s EGet) in
  let out := snd (fifo_step s EGet) in
  exists q', eq_step size q EGet = Some (q', out)
       /\ rel size (match out with OGet _ (Some _) => S reads | _ => reads end) armed s1 q'.
Proof.
  intros size reads armed [started l] q H2 R.
  pose proof R as R0.
  destruct R as [Rs Rl Ro Rc Rle Rf Rin Rh]. cbn [fst snd] in *.
  unfold eq_step, eq_get_full, fifo_step. rewrite Rs, Rc.
  destruct started; cbn [negb fst snd].
  2:{ eexists. split; [reflexivity|]. exact R0. }
  destruct l as [|e l]; cbn [length fst snd].
  { eexists. split; [reflexivity|]. exact R0. }
  assert (Hos : (q_out q < size)%nat).
  { rewrite Ro. apply Nat.mod_upper_bound. lia. }
  cbn [Nat.eqb].
  pose proof (Rh O) as H0. cbn in H0. rewrite Nat.add_0_r, Nat.mod_small in H0 by lia.
  rewrite H0 by lia. eexists. split; [reflexivity|].
  cbn [length] in *.
  constructor; cbn [fst snd q_ready q_slots q_out q_count q_in]; auto; try lia.
  - rewrite Ro, Nat.add_mod_idemp_l by lia. f_equal. lia.
  - destruct armed; [exact Rin|]. rewrite Rin, Rc. rewrite Nat.add_mod_idemp_l by lia. f_equal. lia.
  - eapply holds_tail; [exact Hos| |exact Rh]. lia.
Qed.

Lemma count_rel : forall size reads armed s q, rel size reads armed s q ->
  eq_step size q ECount = Some (q, OCount (length (snd s))).
Proof.
  intros size reads armed [st l] q R. cbn. unfold eq_count.
  rewrite (r_started _ _ _ _ _ R), (r_count _ _ _ _ _ R). cbn.
  destruct st; [reflexivity|].
  destruct (r_fresh _ _ _ _ _ R eq_refl) as [E _]. cbn in E. rewrite E. reflexivity.
Qed.

(** exact behaviour of every operation sequence *)
Lemma run_exact : forall size ops reads armed s q,
  (2 <= size)%nat -> rel size reads armed s q ->
  if hazard size s reads armed ops then eq_run size q ops = None
  else exists q' reads' armed', eq_run size q ops = Some (q', snd (bounded_run size s ops))
       /\ rel size reads' armed' (fst (bounded_run size s ops)) q'.
Proof.
  intros size ops. induction ops as [|o ops IH]; intros reads armed s q H2 R.
  - cbn. exists q, reads, armed. auto.
  - cbn [hazard eq_run bounded_run].
    destruct (bounded_step size s o) as [s1 out] eqn:Eb.
    destruct o as [c i p g sg m| | ].
    + pose proof (send_rel size reads armed s q c i p g sg m H2 R) as S.
      rewrite Eb in S. cbn [fst snd] in S.
      destruct (is_fatal p || (size <? length (snd s) + 2)%nat).
      * destruct S as (q' & Hq & R'). rewrite Hq.
        specialize (IH reads armed s1 q' H2 R').
        destruct (hazard size s1 reads armed ops).
        -- rewrite IH. reflexivity.
        -- destruct IH as (q2 & r2 & a2 & H & Hr). rewrite H.
           destruct (bounded_run size s1 ops) as [s2 outs2]. cbn [fst snd] in *. eauto.
      * destruct armed.
        -- rewrite S. reflexivity.
        -- destruct S as (q' & Hq & R'). rewrite Hq.
           specialize (IH reads _ s1 q' H2 R').
           destruct (hazard size s1 reads _ ops).
           ++ rewrite IH. reflexivity.
           ++ destruct IH as (q2 & r2 & a2 & H & Hr). rewrite H.
              destruct (bounded_run size s1 ops) as [s2 outs2]. cbn [fst snd] in *. eauto.
    + pose proof (get_rel size reads armed s q H2 R) as S.
      assert (Eb' : fifo_step s EGet = (s1, out)) by (destruct s; exact Eb).
      rewrite Eb' in S. cbn [fst snd] in S. destruct S as (q' & Hq & R'). rewrite Hq.
      specialize (IH _ armed s1 q' H2 R').
      destruct (hazard size s1 _ armed ops).
      * rewrite IH. reflexivity.
      * destruct IH as (q2 & r2 & a2 & H & Hr). rewrite H.
        destruct (bounded_run size s1 ops) as [s2 outs2]. cbn [fst snd] in *. eauto.
    + rewrite (count_rel _ _ _ _ _ R).
      assert (Eb' : s1 = s /\ out = OCount (length (snd s))).
      { destruct s. cbn in Eb. inversion Eb. auto. }
      destruct Eb' as [-> ->].
      specialize (IH reads armed s q H2 R).
      destruct (hazard size s reads armed ops).
      * rewrite IH. reflexivity.
      * destruct IH as (q2 & r2 & a2 & H & Hr). rewrite H.
        destruct (bounded_run size s ops) as [s2 outs2]. cbn [fst snd] in *. eauto.
Qed.

Theorem overflow_exact : forall size ops, (2 <= size)%nat ->
  if hazard size (false, []) 0 false ops then eq_run size (eq_reset size) ops = None
  else exists q, eq_run size (eq_reset size) ops = Some (q, snd (bounded_run size (false, []) ops))
       /\ eq_count q = length (snd (fst (bounded_run size (false, []) ops))).
Proof.
  intros size ops H2.
  pose proof (run_exact size ops 0 false _ _ H2 (rel_init size H2)) as R.
  destruct (hazard size (false, []) 0 false ops); [exact R|].
  destruct R as (q' & r' & a' & H & R). exists q'. split; [exact H|].
  pose proof (count_rel _ _ _ _ _ R) as C. cbn in C. congruence.
Qed.

(** below the limit the bounded memory is the unbounded one and there is no hazard *)
Definition below_from (size : nat) (s : fifo) (ops : list eop) : Prop :=
  forall n, (length (snd (fst (fifo_run s (firstn n ops)))) + 2 <= size)%nat.

Lemma below_tail : forall size s o ops s1 out, below_from size s (o :: ops) ->
  fifo_step s o = (s1, out) -> below_from size s1 ops.
Proof.
  intros size s o ops s1 out H Hs n. specialize (H (S n)). cbn [firstn fifo_run] in H. rewrite Hs in H.
  destruct (fifo_run s1 (firstn n ops)); cbn in *; exact H.
Qed.

Lemma below_bounded : forall size ops s reads, below_from size s ops ->
  bounded_run size s ops = fifo_run s ops /\ hazard size s reads false ops = false.
Proof.
  intros size ops. induction ops as [|o ops IH]; intros s reads H; [auto|].
  assert (Hst : bounded_step size s o = fifo_step s o).
  { pose proof (H 0%nat) as H0. pose proof (H 1%nat) as H1. cbn in H0.
    destruct s as [st l]; destruct o as [c i p g sg m| | ]; try reflexivity.
    cbn in *. destruct (is_fatal p); [reflexivity|]. cbn in H1. rewrite app_length in H1. cbn in H1.
    destruct (length l + 2 <? size)%nat eqn:E; [reflexivity|]. lia. }
  cbn [bounded_run fifo_run hazard]. rewrite Hst. destruct (fifo_step s o) as [s1 out] eqn:Es.
  pose proof (below_tail _ _ _ _ _ _ H Es) as Ht.
  assert (Hb : bounded_run size s1 ops = fifo_run s1 ops) by (apply (IH s1 0%nat Ht)).
  split; [rewrite Hb; reflexivity|].
  destruct o as [c i p g sg m| | ]; try (apply IH; exact Ht).
  destruct (is_fatal p || (size <? length (snd s) + 2)%nat) eqn:E; [apply IH; exact Ht|].
  replace (length (snd s) + 2 =? size)%nat with false.
  - apply IH; exact Ht.
  - pose proof (H 1%nat) as H1. destruct s as [st l]. cbn in *.
    destruct (is_fatal p); cbn in E; [discriminate|]. cbn in H1. rewrite app_length in H1. cbn in H1. lia.
Qed.

Theorem fifo_exact : forall size ops, (2 <= size)%nat -> never_fills size ops ->
  exists q, eq_run size (eq_reset size) ops = Some (q, snd (fifo_run (false, []) ops))
            /\ eq_count q = length (pending ops).
Proof.
  intros size ops H2 Hn.
  destruct (below_bounded size ops (false, []) 0%nat Hn) as [Hb Hh].
  pose proof (overflow_exact size ops H2) as O. rewrite Hh, Hb in O. exact O.
Qed.

Lemma fifo_conserve : forall ops s s' outs, fifo_run s ops = (s', outs) ->
  snd s ++ sent ops = got outs ++ snd s'.
Proof.
  induction ops as [|o ops IH]; intros [st l] s' outs H; cbn [fifo_run] in H.
  - injection H as <- <-. cbn. rewrite app_nil_r. reflexivity.
  - destruct (fifo_step (st, l) o) as [s1 out] eqn:Es.
    destruct (fifo_run s1 ops) as [s2 outs2] eqn:Er. injection H as <- <-.
    specialize (IH _ _ _ Er).
    destruct o as [c i p g sg m| | ]; cbn in Es.
    + destruct (is_fatal p) eqn:Ef; injection Es as <- <-; cbn [snd sent got] in *; rewrite Ef; [exact IH|].
      rewrite <- app_assoc in IH. exact IH.
    + destruct st; cbn in Es.
      * destruct l as [|e l]; injection Es as <- <-; cbn [snd sent got] in *; [exact IH|].
        cbn. f_equal. exact IH.
      * injection Es as <- <-. exact IH.
    + injection Es as <- <-. exact IH.
Qed.

Theorem fifo_order : forall size ops q outs, (2 <= size)%nat -> never_fills size ops ->
  eq_run size (eq_reset size) ops = Some (q, outs) ->
  exists rest, sent ops = got outs ++ rest /\ eq_count q = length rest.
Proof.
  intros size ops q outs H2 Hn Hr.
  destruct (fifo_exact size ops H2 Hn) as (q' & Hq & Hc). rewrite Hq in Hr. injection Hr as -> <-.
  exists (pending ops). split; [|exact Hc].
  unfold pending. destruct (fifo_run (false, []) ops) as [s' outs] eqn:E.
  exact (fifo_conserve _ _ _ _ E).
Qed.

(** refutation for every size *)
Definition some_send : eop := ESend 1 0 10 7 5 2.

Fixpoint hz_sends (n : nat) := match n with O => [] | S k => some_send :: hz_sends k end.

Lemma hz_sends_step : forall n size l ops, (length l + n + 2 <= size)%nat ->
  hazard size (true, l) 0 false (hz_sends n ++ ops)
  = hazard size (true, l ++ repeat (entry_of 1 0 10 7 5 2) n) 0 false ops.
Proof.
  induction n as [|n IH]; intros size l ops H.
  - cbn. rewrite app_nil_r. reflexivity.
  - cbn [hz_sends app hazard]. unfold some_send at 1 2. cbn [bounded_step snd].
    change (is_fatal 10) with false. cbn [orb].
    destruct (length l + 2 <? size)%nat eqn:E1; [|lia].
    destruct (size <? length l + 2)%nat eqn:E2; [lia|].
    destruct (length l + 2 =? size)%nat eqn:E3; [lia|]. cbn [andb].
    rewrite IH by (rewrite app_length; cbn; lia).
    rewrite <- app_assoc. reflexivity.
Qed.

Definition oob_ops (size : nat) : list eop := hz_sends (size - 1) ++ [EGet; EGet; some_send].

Lemma oob_hazard : forall size, (2 <= size)%nat -> hazard size (false, []) 0 false (oob_ops size) = true.
Proof.
  intros size H2.
  (* first operation moves to the started state; treat it by unfolding once *)
  assert (Hf : forall ops, hazard size (false, []) 0 false (some_send :: ops)
               = hazard size (true, []) 0 false (some_send :: ops)) by reflexivity.
  unfold oob_ops. destruct (size - 1)%nat as [|n] eqn:En; [lia|].
  cbn [hz_sends app]. rewrite Hf.
  replace (some_send :: hz_sends n ++ [EGet; EGet; some_send])
    with (hz_sends n ++ [some_send; EGet; EGet; some_send]).
  2:{ clear. induction n; cbn; [reflexivity|]. cbn in IHn. rewrite IHn. reflexivity. }
  rewrite hz_sends_step by (cbn; lia). cbn [app].
  set (l := repeat _ n). assert (Hl : length l = n) by apply repeat_length.
  unfold some_send. cbn [hazard bounded_step snd].
  change (is_fatal 10) with false. cbn [orb].
  destruct (length l + 2 <? size)%nat eqn:E1; [lia|].
  destruct (length l + 2 =? size)%nat eqn:E2; [|lia].
  destruct (size <? length l + 2)%nat eqn:E3; [lia|]. cbn [andb].
  rewrite Nat.mod_0_l by lia. cbn [Nat.eqb].
  destruct l as [|e1 [|e2 l']]; cbn [app bounded_step fifo_step negb hazard snd];
    change (is_fatal 10) with false; cbn [orb length].
  - destruct (size <? 0 + 2)%nat eqn:E4; [cbn in *; lia|destruct (_ <? _)%nat; [|destruct (_ =? _)%nat]; reflexivity].
  - destruct (size <? 1 + 2)%nat eqn:E4; [cbn in *; lia|destruct (_ <? _)%nat; [|destruct (_ =? _)%nat]; reflexivity].
  - rewrite app_length. cbn [length] in *.
    repeat match goal with |- context [if ?b then _ else _] => destruct b eqn:? end; try reflexivity; lia.
Qed.

Theorem overflow_refuted : forall size, (2 <= size)%nat ->
  exists ops, eq_run size (eq_reset size) ops = None.
Proof.
  intros size H2. exists (oob_ops size).
  pose proof (overflow_exact size (oob_ops size) H2) as O. rewrite oob_hazard in O by exact H2. exact O.
Qed.

(** peek *)
Definition is_get (o : eop) : bool := match o with EGet => true | _ => false end.

Lemma run_exact_noget : forall size ops armed s q q' outs,
  (2 <= size)%nat -> rel size 0 armed s q -> (armed = true -> (length (snd s) = size)%nat) ->
  existsb is_get ops = false ->
  eq_run size q ops = Some (q', outs) ->
  exists armed', rel size 0 armed' (fst (bounded_run size s ops)) q'
   /\ (armed' = true -> (length (snd (fst (bounded_run size s ops))) = size)%nat).
Proof.
  intros size ops. induction ops as [|o ops IH]; intros armed s q q' outs H2 R Ha Hg Hr.
  - cbn in *. injection Hr as <- <-. eauto.
  - cbn [existsb] in Hg. apply orb_false_iff in Hg as [Ho Hg].
    cbn [eq_run bounded_run] in *.
    destruct (bounded_step size s o) as [s1 out] eqn:Eb.
    destruct o as [c i p g sg m| | ]; [| discriminate |].
    + pose proof (send_rel size 0 armed s q c i p g sg m H2 R) as S.
      rewrite Eb in S. cbn [fst snd] in S.
      destruct (is_fatal p || (size <? length (snd s) + 2)%nat) eqn:E.
      * destruct S as (q1 & Hq & R'). rewrite Hq in Hr.
        destruct (eq_run size q1 ops) as [[q2 outs2]|] eqn:E2; [|discriminate]. injection Hr as <- <-.
        destruct (IH armed s1 q1 q2 outs2 H2 R') as (a' & Hr' & Ha'); auto.
        { intro At. specialize (Ha At). destruct s as [st l]. cbn in Eb, Ha.
          destruct (is_fatal p); [injection Eb as <- <-; exact Ha|].
          destruct (length l + 2 <? size)%nat eqn:E3; [lia|].
          destruct (length l + 2 =? size)%nat eqn:E4; [lia|]. injection Eb as <- <-. exact Ha. }
        destruct (bounded_run size s1 ops). cbn in *. eauto.
      * destruct armed; [rewrite S in Hr; discriminate|].
        destruct S as (q1 & Hq & R'). rewrite Hq in Hr.
        destruct (eq_run size q1 ops) as [[q2 outs2]|] eqn:E2; [|discriminate]. injection Hr as <- <-.
        eapply (IH _ s1 q1 q2 outs2 H2) in R' as (a' & Hr' & Ha'); auto.
        { destruct (bounded_run size s1 ops). cbn in *. eauto. }
        { intro At. destruct s as [st l]. cbn in Eb, At, E.
          destruct (is_fatal p); [discriminate|].
          destruct (length l + 2 <? size)%nat eqn:E3.
          { apply andb_true_iff in At as [At _]. lia. }
          destruct (length l + 2 =? size)%nat eqn:E4; [|discriminate].
          injection Eb as <- <-. cbn. rewrite app_length. cbn. lia. }
    + rewrite (count_rel _ _ _ _ _ R) in Hr.
      assert (Eb' : s1 = s) by (destruct s; cbn in Eb; congruence). subst s1.
      destruct (eq_run size q ops) as [[q2 outs2]|] eqn:E2; [|discriminate]. injection Hr as <- <-.
      destruct (IH armed s q q2 outs2 H2 R Ha Hg E2) as (a' & Hr' & Ha').
      destruct (bounded_run size s ops). cbn in *. eauto.
Qed.

Theorem peek_noget : forall size ops q outs idx e, (2 <= size)%nat ->
  existsb is_get ops = false ->
  eq_run size (eq_reset size) ops = Some (q, outs) ->
  nth_error (snd (fst (bounded_run size (false, []) ops))) idx = Some e ->
  eq_peek size q idx = Some (ERR_OK, Some (e_code e)).
Proof.
  intros size ops q outs idx e H2 Hg Hr Hn.
  destruct (run_exact_noget size ops false _ _ q outs H2 (rel_init size H2)) as (a & R & Ha); auto.
  { discriminate. }
  destruct (bounded_run size (false, []) ops) as [[st l] outs'].
  cbn [fst snd] in *.
  pose proof (nth_error_some_lt _ _ _ _ Hn) as Hlt.
  destruct R as [Rs Rl Ro Rc Rle Rf Rin Rh]. cbn [fst snd] in *.
  assert (st = true). { destruct st; auto. destruct (Rf eq_refl) as [E _]. subst l. cbn in Hlt. lia. }
  rewrite H in Rs. unfold eq_peek. rewrite Rs, Rc. cbn [negb].
  destruct (size <=? idx)%nat eqn:E1; [lia|].
  destruct (length l <=? idx)%nat eqn:E2; [lia|].
  assert (Ho : q_out q = O) by (rewrite Ro; apply Nat.mod_0_l; lia).
  assert (Hi : (((if (length l <? size)%nat then 0 else q_in q) + idx + size) mod size)%nat = idx).
  { destruct (length l <? size)%nat eqn:E3.
    - cbn. rewrite <- (Nat.mul_1_l size) at 1. rewrite Nat.mod_add by lia. apply Nat.mod_small. lia.
    - destruct a.
      + rewrite Rin. replace (size + idx + size)%nat with (idx + 2 * size)%nat by lia.
        rewrite Nat.mod_add by lia. apply Nat.mod_small. lia.
      + rewrite Rin, Ho, Rc. replace (length l) with size by lia. cbn.
        rewrite Nat.mod_same by lia. cbn.
        rewrite <- (Nat.mul_1_l size) at 1. rewrite Nat.mod_add by lia. apply Nat.mod_small. lia. }
  rewrite Hi.
  specialize (Rh idx Hlt). rewrite Ho in Rh. cbn in Rh. rewrite Nat.mod_small in Rh by lia.
  rewrite Rh, Hn. reflexivity.
Qed.

Theorem peek_wrong_after_get : forall size, (4 <= size)%nat ->
  exists ops q outs e q' c, eq_run size (eq_reset size) ops = Some (q, outs) /\ never_fills size ops
    /\ eq_get_full size q = Some (q', (ERR_OK, Some e))
    /\ eq_peek size q 0 = Some (ERR_OK, Some c) /\ c <> e_code e.
Proof.
  intros size H4.
  pose (ops := [ESend 1 0 10 7 5 2; ESend 2 0 10 7 5 2; EGet]).
  assert (Hn : never_fills size ops).
  { intros [|[|[|[|n]]]]; vm_compute; lia. }
  destruct (fifo_exact size ops ltac:(lia) Hn) as (q & Hq & Hc).
  exists ops.
  destruct size as [|[|[|[|k]]]]; try lia.
  set (size := S (S (S (S k)))) in *.
  assert (Hd : exists q, eq_run size (eq_reset size) ops = Some (q, snd (fifo_run (false, []) ops))
           /\ q = EQueue true (Entry 1 10 2 0 (u8 (5 + N.shiftl 7 4)) :: Entry 2 10 2 0 (u8 (5 + N.shiftl 7 4)) :: repeat blank_entry (S (S k))) 2 1 1).
  { unfold ops, eq_run, eq_step, eq_send_full, eq_reset, eq_init. cbn [q_ready q_count q_slots q_in q_out].
    replace (10 =? LVL_FATAL) with false by reflexivity.
    replace (size <? 0 + 2)%nat with false by (symmetry; apply Nat.ltb_ge; unfold size; lia).
    replace (0 <? size)%nat with true by reflexivity.
    replace (size =? 0 + 2)%nat with false by (symmetry; apply Nat.eqb_neq; unfold size; lia).
    unfold size at 1. cbn [repeat upd].
    rewrite (Nat.mod_small (0+1) size) by (unfold size; lia).
    cbn [q_ready q_count q_slots q_in q_out Nat.add].
    replace (size <? 3)%nat with false by (symmetry; apply Nat.ltb_ge; unfold size; lia).
    replace (1 <? size)%nat with true by reflexivity.
    replace (size =? 3)%nat with false by (symmetry; apply Nat.eqb_neq; unfold size; lia).
    cbn [upd].
    rewrite (Nat.mod_small 2 size) by (unfold size; lia).
    unfold eq_get_full. cbn [q_ready q_count q_slots q_in q_out negb Nat.eqb nth_error].
    rewrite (Nat.mod_small (0+1) size) by (unfold size; lia).
    eexists. split; [|reflexivity]. reflexivity. }
  destruct Hd as (q2 & Hq2 & E). exists q2, (snd (fifo_run (false, []) ops)), (Entry 2 10 2 0 (u8 (5 + N.shiftl 7 4))).
  eexists. exists 1. split; [exact Hq2|]. split; [exact Hn|].
  subst q2. unfold eq_get_full, eq_peek. cbn [q_ready q_count q_slots q_in q_out negb Nat.eqb nth_error fst].
  split; [reflexivity|].
  replace (size <=? 0)%nat with false by reflexivity.
  replace (1 <=? 0)%nat with false by reflexivity.
  replace (1 <? size)%nat with true by reflexivity.
  split.
  - cbn [Nat.add]. rewrite Nat.mod_same by (unfold size; lia). reflexivity.
  - cbn. lia.
Qed.

(** codes *)
Lemma expand_eq : forall x, x < 65536 ->
  N.lor (msg_sg_expand x) MSG_GROUP_CAN = 1879048192 + (x / 4096) * 16777216 + x mod 4096.
Proof.
  intros x Hx. unfold msg_sg_expand, msg_sg_expand_group, msg_sg_expand_code, MSG_GROUP_CAN, MSG_SUBGROUP_MASK.
  change (not32 (N.shiftr 251658240 12)) with (N.lor (65535 * 2 ^ 16) (2 ^ 12 - 1)).
  rewrite N.land_lor_distr_r, land_shifted, land_low.
  replace (x / 2 ^ 16) with 0 by (change (2 ^ 16) with 65536; rewrite N.div_small; lia).
  rewrite N.land_0_l, N.mul_0_l, N.lor_0_l.
  change 251658240 with (15 * 2 ^ 24). rewrite land_shifted, land_15.
  rewrite shiftl_mul. unfold u32. change (2 ^ 12) with 4096. change (2 ^ 24) with 16777216.
  rewrite (N.mod_small (x * 4096)) by lia.
  replace (x * 4096 / 16777216) with (x / 4096).
  2:{ change 16777216 with (4096 * 4096). rewrite N.div_mul_cancel_r by lia. reflexivity. }
  assert (Hh : x / 4096 < 16) by (apply N.div_lt_upper_bound; lia).
  assert (Hl : x mod 4096 < 4096) by (apply N.mod_lt; lia).
  rewrite (N.mod_small (x / 4096)) by exact Hh.
  replace (N.lor (x / 4096 * 16777216) (x mod 4096)) with (x / 4096 * 16777216 + x mod 4096).
  2:{ change 16777216 with (2 ^ 24). rewrite lor_add; [reflexivity|]. change (2 ^ 24) with 16777216. lia. }
  rewrite N.lor_comm. change 1879048192 with (7 * 2 ^ 28). rewrite lor_add.
  - change (2 ^ 28) with 268435456. lia.
  - change (2 ^ 28) with 268435456. lia.
Qed.

Lemma extract_code_eq : forall c, msg_extract_code c = c mod 16777216.
Proof. intro c. exact (land_low c 24). Qed.
Lemma extract_sub_eq : forall c, msg_extract_subgroup c = (c / 16777216) mod 16.
Proof.
  intro c. unfold msg_extract_subgroup, u8, MSG_SUBGROUP_MASK. change 251658240 with (15 * 2 ^ 24).
  rewrite land_shifted, land_15, shiftr_div. change (2 ^ 24) with 16777216. rewrite N.div_mul by lia.
  apply N.mod_small. lia.
Qed.
Lemma extract_group_eq : forall c, c < 4294967296 -> msg_extract_group c = c / 268435456.
Proof.
  intros c Hc. unfold msg_extract_group, u8, MSG_GROUP_MASK. change 4026531840 with (15 * 2 ^ 28).
  rewrite land_shifted, land_15, shiftr_div. change (2 ^ 28) with 268435456. rewrite N.div_mul by lia.
  assert (c / 268435456 < 16) by (apply N.div_lt_upper_bound; lia).
  rewrite (N.mod_small (c / 268435456)) by lia. apply N.mod_small. lia.
Qed.
Lemma extract_gs_eq : forall c, c < 4294967296 -> msg_extract_group_subgroup c = c / 16777216.
Proof.
  intros c Hc. unfold msg_extract_group_subgroup, u8, MSG_GROUP_MASK, MSG_SUBGROUP_MASK.
  change (N.lor 4026531840 251658240) with (255 * 2 ^ 24).
  rewrite land_shifted, land_255, shiftr_div. change (2 ^ 24) with 16777216. rewrite N.div_mul by lia.
  assert (c / 16777216 < 256) by (apply N.div_lt_upper_bound; lia).
  rewrite (N.mod_small (c / 16777216)) by lia. apply N.mod_small. lia.
Qed.

Lemma code_facts : forall x, x < 65536 ->
  let c := N.lor (msg_sg_expand x) MSG_GROUP_CAN in
  c = 1879048192 + (x / 4096) * 16777216 + x mod 4096
  /\ msg_extract_code c = x mod 4096 /\ msg_extract_subgroup c = x / 4096
  /\ msg_extract_group c = 7 /\ msg_extract_group_subgroup c = 112 + x / 4096 /\ err_num_of_code c = x
  /\ u8 (msg_extract_subgroup c + N.shiftl (msg_extract_group c) 4) = 112 + x / 4096.
Proof.
  intros x Hx c. unfold c. rewrite (expand_eq x Hx).
  assert (Hh : x / 4096 < 16) by (apply N.div_lt_upper_bound; lia).
  assert (Hl : x mod 4096 < 4096) by (apply N.mod_lt; lia).
  pose proof (N.div_mod x 4096 ltac:(lia)) as Hd.
  set (h := x / 4096) in *. set (l := x mod 4096) in *.
  set (k := 1879048192 + h * 16777216 + l).
  assert (Ek : msg_extract_code k = l).
  { rewrite extract_code_eq. unfold k. lia. }
  assert (Es : msg_extract_subgroup k = h).
  { rewrite extract_sub_eq. unfold k. lia. }
  assert (Eg : msg_extract_group k = 7).
  { rewrite extract_group_eq; unfold k; lia. }
  assert (Egs : msg_extract_group_subgroup k = 112 + h).
  { rewrite extract_gs_eq; unfold k; lia. }
  split; [reflexivity|]. split; [exact Ek|]. split; [exact Es|]. split; [exact Eg|]. split; [exact Egs|].
  split.
  - unfold err_num_of_code. rewrite Ek, Es, shiftl_mul, lor_add by (change (2 ^ 12) with 4096; lia).
    change (2 ^ 12) with 4096. unfold u16. rewrite N.mod_small by lia. lia.
  - rewrite Es, Eg. change (N.shiftl 7 4) with 112. unfold u8. rewrite N.mod_small by lia. lia.
Qed.

Lemma code_inj : forall x y, x < 65536 -> y < 65536 ->
  N.lor (msg_sg_expand x) MSG_GROUP_CAN = N.lor (msg_sg_expand y) MSG_GROUP_CAN -> x = y.
Proof.
  intros x y Hx Hy H.
  destruct (code_facts x Hx) as (_ & _ & _ & _ & _ & Ex & _).
  destruct (code_facts y Hy) as (_ & _ & _ & _ & _ & Ey & _).
  cbv zeta in *. rewrite H in Ex. congruence.
Qed.

(** ** The build without a queue *)
Lemma slot_from ops : forall s, (s_count s <= 1)%nat ->
  let s' := fst (sl_run s ops) in
  s_count s' = (if unread_from (s_count s =? 1)%nat ops then 1 else 0)%nat /\
  s_entry s' = (match newest_from (Some (s_entry s)) ops with Some e => e | None => blank_entry end).
Proof.
  induction ops as [|o r IH]; intros s H; cbn [sl_run].
  - cbn. destruct (s_count s) as [|[|n]]; cbn; auto; lia.
  - destruct o as [c i p g sg m| |]; cbn [sl_step newest_from unread_from].
    + unfold es_send_full. change LVL_FATAL with 15. unfold is_fatal. destruct (p =? 15).
      * specialize (IH s H). destruct (sl_run s r). cbn [fst] in *. rewrite orb_false_r. exact IH.
      * specialize (IH (ESlot (Entry c p m i (u8 (sg + N.shiftl g 4))) 1) ltac:(cbn; lia)). destruct (sl_run _ r). cbn [fst s_entry s_count] in *.
        change (1 =? 1)%nat with true in IH. rewrite orb_true_r. unfold entry_of. replace (16 * g) with (N.shiftl g 4) by (rewrite N.shiftl_mul_pow2; change (2 ^ 4) with 16; lia).
        exact IH.
    + unfold es_get_full. specialize (IH (ESlot (s_entry s) 0) ltac:(cbn; lia)). destruct (sl_run _ r). cbn [fst s_entry s_count] in *. exact IH.
    + specialize (IH s H). destruct (sl_run s r). cbn [fst] in *. exact IH.
Qed.
Lemma newest_blank ops : match newest_from (Some blank_entry) ops with Some e => e | None => blank_entry end = match newest_from None ops with Some e => e | None => blank_entry end.
Proof. induction ops as [|[c i p g sg m| |] r IH]; cbn; auto. destruct (is_fatal p); auto. Qed.
Lemma slot_newest ops s outs : sl_run es_reset ops = (s, outs) ->
  s_count s = (if unread ops then 1 else 0)%nat /\
  sl_step s EGet = (ESlot (s_entry s) 0, OGet ERR_OK (Some (match newest ops with Some e => e | None => blank_entry end))).
Proof.
  intro R. destruct (slot_from ops es_reset ltac:(cbn; lia)) as [A B]. rewrite R in A, B. cbn [fst] in *.
  split; [exact A|]. unfold sl_step, es_get_full. rewrite B. change (s_entry es_reset) with blank_entry. rewrite newest_blank. reflexivity.
Qed.
