(** C94: the download buffer read by the application while messages arrive. *)
From Verif Require Import Words WordsFacts Ring ErrModel XBufModel XBufSpec XBufProofs XBufIrqModel XBufIrqSpec.

(** ** invariant: the content [l] of the buffer and where the call stands *)
Definition GI (size : nat) (s : gsys) (l : list byte) : Prop :=
  match g_task s with
  | None | Some PCheck => xrel size l (g_b s)
  | Some PLoad => xrel size l (g_b s) /\ l <> []
  | Some (PDec x) => xrel size l (g_b s) /\ exists t, l = x :: t
  | Some (PStore x k) => xrel size l (g_b s) /\ k = length l /\ exists t, l = x :: t
  | Some (PNext x) => xrel size l (set_rd (g_b s) (next_read size (g_b s)))
  end.
(** bytes taken but not yet given back *)
Definition held (t : option gpoint) : list byte := match t with Some (PNext x) => [x] | _ => [] end.

Lemma ok_over e : (if (if e : bool then ERR_OK else ERR_BUF_OVERFLOW) =? ERR_OK then true else false) = e.
Proof. destruct e; reflexivity. Qed.
Lemma ok_under e : (if (if e : bool then ERR_OK else ERR_BUF_UNDERFLOW) =? ERR_OK then true else false) = e.
Proof. destruct e; reflexivity. Qed.
Lemma add_rd size b x r b' e : xb_add size (set_rd b r) x = Some (b', e) -> exists b1, xb_add size b x = Some (b1, e) /\ b' = set_rd b1 r /\ xb_read b1 = xb_read b.
Proof.
  unfold xb_add. cbn [set_rd xb_nr xb_data xb_write xb_rstore xb_nstore xb_read]. destruct (size <=? xb_nr b)%nat; [intro H; injection H as <- <-; eauto|].
  destruct (upd (xb_data b) (xb_write b) x) as [d|]; [|discriminate]. intro H. injection H as <- <-. eexists. split; [reflexivity|]. split; reflexivity.
Qed.
Lemma remove_rd size b k r : xb_remove size (set_rd b r) k = (set_rd (fst (xb_remove size b k)) r, snd (xb_remove size b k)) /\ xb_read (fst (xb_remove size b k)) = xb_read b.
Proof. unfold xb_remove. cbn [set_rd xb_nr xb_write xb_data xb_read xb_rstore xb_nstore]. destruct (xb_nr b <? k)%nat; split; reflexivity. Qed.

(** an addition and a removal in terms of the content, with the call at any point *)
Lemma add_any size s l x : GI size s l -> (forall y k, g_task s <> Some (PStore y k)) ->
  exists s1, gstep size s (VAdd x) = Some (s1, if (length l <? size)%nat then GAdded x else GRefused x) /\ g_task s1 = g_task s /\ GI size s1 (if (length l <? size)%nat then l ++ [x] else l).
Proof.
  intros I Np. destruct s as [b t]. unfold GI in I. cbn [g_task g_b] in *. cbn [gstep g_b g_task].
  assert (forall m : unit, xrel size l b -> exists b', xb_add size b x = Some (b', if (length l <? size)%nat then ERR_OK else ERR_BUF_OVERFLOW) /\ xrel size (if (length l <? size)%nat then l ++ [x] else l) b') as K.
  { intros _ R. destruct (xadd_rel size l b x R) as (b' & H & R' & _). eauto. }
  destruct t as [[| |y|y k|y]|].
  - destruct (K tt I) as (b' & H & R'). rewrite H. eexists. split; [destruct (length l <? size)%nat; reflexivity|]. split; [reflexivity|exact R'].
  - destruct I as [I Hn]. destruct (K tt I) as (b' & H & R'). rewrite H. eexists. split; [destruct (length l <? size)%nat; reflexivity|]. split; [reflexivity|]. split; [exact R'|]. destruct (length l <? size)%nat; [destruct l; discriminate|exact Hn].
  - destruct I as [I (u & ->)]. destruct (K tt I) as (b' & H & R'). rewrite H. eexists. split; [destruct (length (y :: u) <? size)%nat; reflexivity|]. split; [reflexivity|]. split; [exact R'|]. destruct (length (y :: u) <? size)%nat; cbn [app]; eauto.
  - exfalso. eapply Np; reflexivity.
  - destruct (xadd_rel size l _ x I) as (b' & H & R' & _). apply add_rd in H. destruct H as (b1 & H & -> & Rd). rewrite H. eexists. split; [destruct (length l <? size)%nat; reflexivity|]. split; [reflexivity|].
    unfold GI. cbn [g_task g_b]. unfold next_read in *. rewrite Rd. exact R'.
  - destruct (K tt I) as (b' & H & R'). rewrite H. eexists. split; [destruct (length l <? size)%nat; reflexivity|]. split; [reflexivity|exact R'].
Qed.
Lemma remove_any size s l k : GI size s l -> clean_ev (g_task s) (VRemove k) = true ->
  exists s1, gstep size s (VRemove k) = Some (s1, if (k <=? length l)%nat then GRemoved k else GNotRemoved k) /\ g_task s1 = g_task s /\ GI size s1 (if (k <=? length l)%nat then firstn (length l - k) l else l).
Proof.
  intros I C. destruct s as [b t]. unfold GI in I. cbn [g_task g_b] in *. cbn [gstep g_b g_task].
  destruct t as [[| |y|y n|y]|]; try discriminate C.
  - pose proof (xremove_rel size l b k I) as [Q R']. cbn zeta in Q, R'. destruct (xb_remove size b k) as [b' e]. cbn [fst snd] in *. subst e. eexists. split; [destruct (k <=? length l)%nat; reflexivity|]. split; [reflexivity|exact R'].
  - pose proof (xremove_rel size l _ k I) as [Q R']. cbn zeta in Q, R'. destruct (remove_rd size b k (next_read size b)) as [H Rd]. rewrite H in Q, R'. destruct (xb_remove size b k) as [b' e]. cbn [fst snd] in *. subst e.
    eexists. split; [destruct (k <=? length l)%nat; reflexivity|]. split; [reflexivity|]. unfold GI. cbn [g_task g_b]. unfold next_read in *. rewrite Rd. exact R'.
  - pose proof (xremove_rel size l b k I) as [Q R']. cbn zeta in Q, R'. destruct (xb_remove size b k) as [b' e]. cbn [fst snd] in *. subst e. eexists. split; [destruct (k <=? length l)%nat; reflexivity|]. split; [reflexivity|exact R'].
Qed.
Lemma taken_rel size x u b : xrel size (x :: u) b -> xrel size u (set_rd (set_nr b (length u)) (next_read size b)).
Proof.
  intro R. pose proof (xget_rel size (x :: u) b R) as (b' & H & R' & _). unfold xb_get in H.
  destruct (xb_nr b =? 0)%nat; [discriminate|]. destruct (nth_error (xb_data b) (xb_read b)); [|discriminate]. injection H as <- _.
  unfold set_rd, set_nr, next_read. cbn. pose proof (xr_nr _ _ _ R) as N. cbn [length] in N. rewrite N in R'. cbn [Nat.sub] in R'. rewrite Nat.sub_0_r in R'. exact R'.
Qed.
Lemma gstep_inv size s l e : GI size s l -> clean_ev (g_task s) e = true ->
  exists s1 o l1, gstep size s e = Some (s1, o) /\ explain size l o = Some l1 /\ GI size s1 l1 /\ held (g_task s) ++ taken [o] = got [o] ++ held (g_task s1).
Proof.
  intros I C. destruct e as [| |x|k].
  - destruct s as [b t]. cbn [g_task] in *. destruct t; [discriminate|]. exists (GSys b (Some PCheck)), GQuiet, l. split; [reflexivity|]. split; [reflexivity|]. split; [exact I|reflexivity].
  - destruct s as [b t]. unfold GI in I. cbn [g_task g_b] in *. cbn [gstep g_b g_task]. destruct t as [[| |y|y n|y]|].
    + pose proof (xr_nr _ _ _ I) as N. rewrite N. destruct l as [|z u].
      * exists (GSys b None), GEmpty, []. split; [reflexivity|]. split; [reflexivity|]. split; [exact I|reflexivity].
      * exists (GSys b (Some PLoad)), GQuiet, (z :: u). split; [reflexivity|]. split; [reflexivity|]. split; [split; [exact I|discriminate]|reflexivity].
    + destruct I as [I Hn]. destruct l as [|z u]; [contradiction|]. rewrite (holds_head _ _ _ _ _ _ (xr_read _ _ _ I) (xr_holds _ _ _ I)).
      exists (GSys b (Some (PDec z))), GQuiet, (z :: u). split; [reflexivity|]. split; [reflexivity|]. split; [split; [exact I|eauto]|reflexivity].
    + destruct I as [I (u & ->)]. exists (GSys b (Some (PStore y (xb_nr b)))), GQuiet, (y :: u). split; [reflexivity|]. split; [reflexivity|].
      split; [|reflexivity]. split; [exact I|]. split; [exact (xr_nr _ _ _ I)|eauto].
    + destruct I as (I & -> & u & ->). exists (GSys (set_nr b (length u)) (Some (PNext y))), (GTaken y), u. split; [reflexivity|]. split; [cbn; rewrite N.eqb_refl; reflexivity|].
      split; [|reflexivity]. unfold GI. cbn [g_task g_b]. exact (taken_rel size y u b I).
    + exists (GSys (set_rd b (next_read size b)) None), (GGot y), l. split; [reflexivity|]. split; [reflexivity|]. split; [exact I|reflexivity].
    + exists (GSys b None), GQuiet, l. split; [reflexivity|]. split; [reflexivity|]. split; [exact I|reflexivity].
  - destruct (add_any size s l x I) as (s1 & H & T & I1). { intros y k Q. rewrite Q in C. discriminate. }
    destruct (length l <? size)%nat eqn:L.
    + exists s1, (GAdded x), (l ++ [x]). split; [exact H|]. split; [cbn; rewrite L; reflexivity|]. split; [exact I1|]. rewrite T. cbn. rewrite app_nil_r. reflexivity.
    + exists s1, (GRefused x), l. split; [exact H|]. split.
      * cbn. assert (length l <= size)%nat as Le. { unfold GI in I. destruct (g_task s) as [[| |y|y n|y]|]; (exact (xr_le _ _ _ I) || exact (xr_le _ _ _ (proj1 I))). } replace (length l =? size)%nat with true by (symmetry; apply Nat.eqb_eq; apply Nat.ltb_ge in L; lia). reflexivity.
      * split; [exact I1|]. rewrite T. cbn. rewrite app_nil_r. reflexivity.
  - destruct (remove_any size s l k I C) as (s1 & H & T & I1). destruct (k <=? length l)%nat eqn:L.
    + exists s1, (GRemoved k), (firstn (length l - k) l). split; [exact H|]. split; [cbn; rewrite L; reflexivity|]. split; [exact I1|]. rewrite T. cbn. rewrite app_nil_r. reflexivity.
    + exists s1, (GNotRemoved k), l. split; [exact H|]. split; [cbn; replace (length l <? k)%nat with true by (symmetry; apply Nat.ltb_lt; apply Nat.leb_gt in L; exact L); reflexivity|]. split; [exact I1|]. rewrite T. cbn. rewrite app_nil_r. reflexivity.
Qed.
Lemma taken_cons o os : taken (o :: os) = taken [o] ++ taken os.
Proof. destruct o; reflexivity. Qed.
Lemma got_cons o os : got (o :: os) = got [o] ++ got os.
Proof. destruct o; reflexivity. Qed.
Lemma grun_inv size es : forall s l, GI size s l -> clean size s es ->
  exists s1 os l1, grun size s es = Some (s1, os) /\ explains size l os = Some l1 /\ GI size s1 l1 /\ held (g_task s) ++ taken os = got os ++ held (g_task s1).
Proof.
  induction es as [|e t IH]; intros s l I C; cbn [clean] in C.
  - exists s, [], l. split; [reflexivity|]. split; [reflexivity|]. split; [exact I|]. cbn. apply app_nil_r.
  - destruct C as [C1 C2]. destruct (gstep_inv size s l e I C1) as (s1 & o & l1 & H & X & I1 & T). destruct (IH s1 l1 I1 (C2 _ _ H)) as (s2 & os & l2 & R & X2 & I2 & T2).
    exists s2, (o :: os), l2. split; [cbn [grun]; rewrite H, R; reflexivity|]. split; [cbn [explains]; rewrite X; exact X2|]. split; [exact I2|].
    rewrite taken_cons, got_cons, app_assoc, T, <- app_assoc, T2, app_assoc. reflexivity.
Qed.

(** in every clean schedule, of any length and buffer size: nothing is accessed out of bounds, everything seen is what a buffer does, the
    application gets exactly the bytes taken, in order, and outside of calls the number of bytes is the true one *)
Theorem C94_clean_partial : forall size es, (0 < size)%nat -> clean size (gstart size) es ->
  exists s os l, grun size (gstart size) es = Some (s, os) /\ explains size [] os = Some l /\
  (g_task s = None -> got os = taken os /\ xb_nr (g_b s) = length l).
Proof.
  intros size es Hs C. destruct (grun_inv size es (gstart size) []) as (s & os & l & R & X & I & T); [exact (xrel_zero size Hs)|exact C|].
  exists s, os, l. split; [exact R|]. split; [exact X|]. intro N. cbn in T. rewrite N, app_nil_r in T. split; [auto|]. unfold GI in I. rewrite N in I. exact (xr_nr _ _ _ I).
Qed.
Print Assumptions C94_clean_partial.

Lemma explains_fifo size os : forall l l1, (forall k, ~ In (GRemoved k) os) -> explains size l os = Some l1 -> l ++ added os = taken os ++ l1.
Proof.
  induction os as [|o t IH]; intros l l1 Nr H; cbn [explains] in H; [injection H as <-; apply app_nil_r|].
  destruct (explain size l o) as [l0|] eqn:E; [|discriminate]. assert (forall k, ~ In (GRemoved k) t) as Nt by (intros k Hk; apply (Nr k); right; exact Hk). specialize (IH l0 l1 Nt H).
  destruct o; cbn [explain added taken] in *.
  - injection E as <-. exact IH.
  - destruct l as [|y u]; [discriminate|]. destruct (N.eqb_spec x y) as [Q|Q]; [|discriminate]. injection E as <-. subst y. cbn [app]. rewrite IH. reflexivity.
  - injection E as <-. exact IH.
  - destruct l; [|discriminate]. injection E as <-. exact IH.
  - destruct (length l <? size)%nat; [|discriminate]. injection E as <-. rewrite <- app_assoc in IH. exact IH.
  - destruct (length l =? size)%nat; [|discriminate]. injection E as <-. exact IH.
  - exfalso. apply (Nr k). left. reflexivity.
  - destruct (length l <? k)%nat; [|discriminate]. injection E as <-. exact IH.
Qed.
(** without removals: what was added is what the application got, then what is still in the buffer *)
Theorem C94_in_order_partial : forall size es, (0 < size)%nat -> clean size (gstart size) es -> (forall k, ~ In (VRemove k) es) ->
  exists s os l, grun size (gstart size) es = Some (s, os) /\ (g_task s = None -> added os = got os ++ l /\ xb_nr (g_b s) = length l).
Proof.
  intros size es Hs C Nr. destruct (C94_clean_partial size es Hs C) as (s & os & l & R & X & T). exists s, os, l. split; [exact R|]. intro N. destruct (T N) as [T1 T2]. split; [|exact T2].
  apply explains_fifo in X; [rewrite T1; exact X|]. clear - R Nr. revert R. generalize (gstart size). revert os. induction es as [|e t IH]; intros os g R k Hk; cbn [grun] in R.
  - injection R as <- <-. destruct Hk.
  - destruct (gstep size g e) as [[g1 o]|] eqn:G; [|discriminate]. destruct (grun size g1 t) as [[g2 os']|] eqn:R2; [|discriminate]. injection R as <- <-. destruct Hk as [->|Hk].
    + destruct e as [| |x|j]; cbn [gstep] in G.
      * destruct (g_task g); discriminate.
      * destruct (g_task g) as [[| |y|y n|y]|]; try discriminate G. { destruct (xb_nr (g_b g) =? 0)%nat; discriminate. } { destruct (nth_error (xb_data (g_b g)) (xb_read (g_b g))); discriminate. }
      * destruct (xb_add size (g_b g) x) as [[b e]|]; [|discriminate]. destruct (e =? ERR_OK); discriminate.
      * apply (Nr j). left. reflexivity.
    + eapply IH; [|exact R2|exact Hk]. intros j Hj. apply (Nr j). right. exact Hj.
Qed.
Print Assumptions C94_in_order_partial.

(** a call that nothing interrupts is the function of C38 *)
Theorem C94_uninterrupted_partial : forall size b b' e v, xb_get size b = Some (b', (e, v)) ->
  exists n os, grun size (GSys b None) (VCall :: repeat VAcc n) = Some (GSys b' None, os) /\ last os GQuiet = (match v with Some x => GGot x | None => GEmpty end).
Proof.
  intros size b b' e v H. unfold xb_get in H. destruct (xb_nr b =? 0)%nat eqn:Z.
  - injection H as <- <- <-. exists 1%nat, [GQuiet; GEmpty]. split; [cbn; rewrite Z; reflexivity|reflexivity].
  - destruct (nth_error (xb_data b) (xb_read b)) as [x|] eqn:Hx; [|discriminate]. injection H as <- <- <-.
    exists 5%nat, [GQuiet; GQuiet; GQuiet; GQuiet; GTaken x; GGot x]. split; [|reflexivity]. cbn. rewrite Z. cbn. rewrite Hx. cbn.
    apply Nat.eqb_neq in Z. destruct b as [d r w n rs ns]. cbn in *. unfold set_rd, set_nr, next_read. cbn. destruct n as [|n]; [lia|]. cbn [dec16]. cbn [Nat.sub]. rewrite Nat.sub_0_r. reflexivity.
Qed.
Print Assumptions C94_uninterrupted_partial.

(** *** concrete schedules *)
Definition msg (k : N) : list gev := map (fun i => VAdd (k + N.of_nat i)) (seq 0 7).
Definition irq_ok : list gev := msg 10 ++ [VCall; VAcc; VAcc] ++ msg 20 ++ [VAcc; VAcc; VRemove 3; VAcc; VCall; VAcc; VAcc; VAcc; VAcc; VAcc].
Example C94_case : clean 20 (gstart 20) irq_ok /\
  option_map (fun r => (got (snd r), xb_nr (g_b (fst r)), g_task (fst r))) (grun 20 (gstart 20) irq_ok) = Some ([10; 11], 9%nat, None).
Proof.
  split; [|vm_compute; reflexivity]. unfold irq_ok, msg.
  assert (forall es s, (fix chk es s := match es with [] => true | e :: t => clean_ev (g_task s) e && match gstep 20 s e with Some (s1, _) => chk t s1 | None => true end end) es s = true -> clean 20 s es) as K.
  { induction es as [|e t IH]; intros s H; [exact I|]. apply andb_prop in H. destruct H as [H1 H2]. split; [exact H1|]. intros s1 o G. rewrite G in H2. apply IH, H2. }
  apply K. vm_compute. reflexivity.
Qed.
Print Assumptions C94_case.
(** Refuted in general: a data message between the read and the write of the number of bytes is not counted. With seven bytes in the buffer the
    application takes one, seven more arrive meanwhile; it then gets the other six and is told that the buffer is empty. *)
Definition get1 : list gev := VCall :: repeat VAcc 5.
Definition irq_lost : list gev := msg 10 ++ [VCall; VAcc; VAcc; VAcc] ++ msg 20 ++ [VAcc; VAcc] ++ flat_map (fun _ => get1) (seq 0 6) ++ [VCall; VAcc].
Theorem C94_lost_refuted : exists s os, grun 140 (gstart 140) irq_lost = Some (s, os) /\
  added os = [10;11;12;13;14;15;16;20;21;22;23;24;25;26] /\ got os = [10;11;12;13;14;15;16] /\ last os GQuiet = GEmpty /\ xb_nr (g_b s) = 0%nat.
Proof. destruct (grun 140 (gstart 140) irq_lost) as [[s os]|] eqn:R; [|vm_compute in R; discriminate]. exists s, os. split; [reflexivity|]. vm_compute in R. injection R as <- <-. vm_compute. repeat split. Qed.
Print Assumptions C94_lost_refuted.
(** Refuted as well: the end of a block removes the byte that is being taken. The number of bytes wraps to 65535: every later byte is refused
    although nothing is in the buffer. *)
Definition irq_wrap : list gev := [VAdd 7; VCall; VAcc; VAcc; VRemove 1; VAcc; VAcc; VAcc; VAdd 8].
Theorem C94_wrap_refuted : exists s os, grun 140 (gstart 140) irq_wrap = Some (s, os) /\ added os = [7] /\ got os = [7] /\ existsb (fun o => match o with GRemoved 1 => true | _ => false end) os = true /\
  last os GQuiet = GRefused 8 /\ (140 <=? xb_nr (g_b s))%nat = true /\ N.of_nat (xb_nr (g_b s)) = 65535.
Proof.
  assert (option_map (fun r => (added (snd r), got (snd r), existsb (fun o => match o with GRemoved 1 => true | _ => false end) (snd r), last (snd r) GQuiet, (140 <=? xb_nr (g_b (fst r)))%nat)) (grun 140 (gstart 140) irq_wrap) = Some ([7], [7], true, GRefused 8, true)) as H by (vm_compute; reflexivity).
  assert (exists s os, grun 140 (gstart 140) irq_wrap = Some (s, os) /\ xb_nr (g_b s) = dec16 0) as (s & os & R & D).
  { eexists. eexists. split; [reflexivity|reflexivity]. }
  rewrite R in H. cbn [option_map fst snd] in H. exists s, os. split; [exact R|]. injection H as H1 H2 H3 H4 H5. repeat (split; [assumption|]).
  rewrite D. unfold dec16. apply N2Nat.id.
Qed.
Print Assumptions C94_wrap_refuted.
