(** Proofs about the asynchronous queues. *)
From Verif Require Import Words WordsFacts Ring ErrModel NodeModel LookModel LookSpec LookProofs AsyncModel AsyncSpec.

(** ** rings *)
Lemma next_mod L i : (i < L)%nat -> next_idx L i = ((i + 1) mod L)%nat.
Proof.
  intro H. unfold next_idx. destruct (i <? L - 1)%nat eqn:E.
  - apply Nat.ltb_lt in E. rewrite Nat.mod_small; lia.
  - apply Nat.ltb_ge in E. replace (i + 1)%nat with L by lia. rewrite Nat.mod_same; lia.
Qed.
Record ring {A} (L : nat) (slots : list A) (w r n : nat) (l : list A) : Prop := Ring_ {
  rg_len : length slots = L;
  rg_r : (r < L)%nat;
  rg_w : w = ((r + length l) mod L)%nat;
  rg_n : n = length l;
  rg_le : (length l <= L)%nat;
  rg_h : holds L slots r l
}.
Lemma ring_w {A} L (slots : list A) w r n l : ring L slots w r n l -> (w < L)%nat.
Proof. intros [_ H -> _ _ _]. apply Nat.mod_upper_bound. lia. Qed.
Lemma ring_put {A} L (slots : list A) w r n l x : ring L slots w r n l -> (length l < L)%nat ->
  ring L (set_nth slots w x) (next_idx L w) r (n + 1) (l ++ [x]).
Proof.
  intros R Hl. pose proof (ring_w _ _ _ _ _ _ R) as Hw. destruct R as [H1 H2 H3 H4 H5 H6]. split.
  - rewrite set_nth_length. exact H1.
  - exact H2.
  - rewrite next_mod by exact Hw. rewrite H3. rewrite Nat.add_mod_idemp_l by lia. rewrite app_length. cbn [length]. f_equal. lia.
  - rewrite app_length. cbn. lia.
  - rewrite app_length. cbn. lia.
  - apply (holds_app _ _ slots _ _ _ _ w); auto. apply upd_set_nth. lia.
Qed.
Lemma ring_free {A} L (slots : list A) w r n l x : ring L slots w r n l -> (length l < L)%nat ->
  ring L (set_nth slots w x) w r n l.
Proof.
  intros R Hl. pose proof (ring_put _ _ _ _ _ _ x R Hl) as P. destruct R as [H1 H2 H3 H4 H5 H6]. split; auto.
  - rewrite set_nth_length. exact H1.
  - apply rg_h in P. intros k Hk. rewrite (P k) by (rewrite app_length; lia). apply nth_error_app1. exact Hk.
Qed.
Lemma ring_take {A} L (slots : list A) w r n m l : ring L slots w r n (m :: l) ->
  nth_error slots r = Some m /\ ring L slots w (next_idx L r) (n - 1) l.
Proof.
  intros [H1 H2 H3 H4 H5 H6]. cbn [length] in *. split.
  - apply (holds_head _ _ _ _ _ _ H2 H6).
  - rewrite next_mod by exact H2. split; try lia.
    + rewrite H3. rewrite Nat.add_mod_idemp_l by lia. f_equal. lia.
    + apply (holds_tail _ _ _ _ m); auto; lia.
Qed.
Lemma ring_zero {A} L (x : A) : (0 < L)%nat -> ring L (repeat x L) 0 0 0 [].
Proof. intro H. split; cbn; try lia; try apply repeat_length. symmetry. apply Nat.mod_small. lia. apply holds_nil. Qed.

(** ** generic runs *)
Lemma runs_steps {S O R A} (step : S -> O -> option (S * R)) (spec : A -> O -> A -> R -> Prop) (rel : S -> A -> Prop) (ok : O -> Prop)
  (sim : forall s a o, rel s a -> ok o -> exists s' r a', step s o = Some (s', r) /\ spec a o a' r /\ rel s' a') :
  forall ops s a, rel s a -> Forall ok ops -> exists s' rs a', runs step s ops = Some (s', rs) /\ steps spec a ops a' rs /\ rel s' a'.
Proof.
  induction ops as [|o ops IH]; intros s a Hr Ho.
  - exists s, [], a. repeat split; auto. constructor.
  - inversion Ho as [|? ? Ho1 Ho2]; subst. destruct (sim s a o Hr Ho1) as (s1 & r & a1 & E1 & P1 & R1).
    destruct (IH s1 a1 R1 Ho2) as (s2 & rs & a2 & E2 & P2 & R2).
    exists s2, (r :: rs), a2. cbn [runs]. rewrite E1, E2. repeat split; auto. econstructor; eauto.
Qed.

(** ** control messages *)
Definition crel (L : nat) (q : crq) (l : list cmsg) : Prop := ring L (cr_slots q) (cr_write q) (cr_read q) (cr_state q) l.
Lemma listening_iff tab sil nr : listening tab sil nr <-> snd (nr_valid tab sil nr) = 1 /\ snd (fst (nr_valid tab sil nr)) <> SILENT.
Proof.
  destruct (by_nr tab sil nr) as [(p & F & E)|[F E]]; rewrite E; cbn [fst snd]; split.
  - intros (p' & F' & S). split; auto. destruct (Nat.eq_dec p p') as [->|N]; auto. exfalso.
    destruct F as (A & B & C). destruct F' as (A' & B' & C').
    destruct (Nat.lt_total p p') as [K|[K|K]]; try congruence; [apply (C' p K B)|apply (C p' K B')].
  - intros [_ S]. exists p. auto.
  - intros (p' & (A & B & _) & _). exfalso. apply (F p' A B).
  - intros [K _]. discriminate.
Qed.
Lemma csim L (HL : (0 < L)%nat) q l o : crel L q l -> cop_ok o ->
  exists q' r l', crq_step L q o = Some (q', r) /\ cstep L l o l' r /\ crel L q' l'.
Proof.
  intros R K. destruct o as [tab sil nr src|]; cbn [crq_step].
  - unfold crq_put. pose proof (listening_iff tab sil nr) as LI.
    destruct (nr_valid tab sil nr) as [[p st] found] eqn:E. cbn [fst snd] in LI.
    assert (FD : found = 0 \/ found = 1).
    { destruct (by_nr tab sil nr) as [(p' & _ & E')|[_ E']]; rewrite E in E'; injection E' as _ _ ->; auto. }
    destruct FD as [->| ->].
    { exists q, (CErr ERR_OK), l. split; [reflexivity|]. split; [|exact R]. apply CsDrop. rewrite LI. intros [F _]. discriminate. }
    change (1 =? 0) with false. cbv iota.
    destruct (st =? SILENT) eqn:ES.
    { exists q, (CErr ERR_OK), l. split; [reflexivity|]. split; [|exact R]. apply CsDrop. rewrite LI. intros [_ F]. apply N.eqb_eq in ES. auto. }
    apply N.eqb_neq in ES. assert (LS : listening tab sil nr) by (apply LI; auto).
    destruct (cr_state q <? L)%nat eqn:EF; cbn [negb].
    + apply Nat.ltb_lt in EF. cbn in K. destruct (length src <? 8)%nat eqn:E8; [apply Nat.ltb_lt in E8; lia|].
      pose proof R as [H1 H2 H3 H4 H5 H6]. pose proof (ring_w _ _ _ _ _ _ R) as Hw.
      rewrite upd_set_nth by lia.
      eexists _, _, _. split; [reflexivity|]. split; [apply CsAccept; auto; lia|].
      unfold crel. cbn [cr_slots cr_write cr_read cr_state]. apply ring_put; auto. lia.
    + apply Nat.ltb_ge in EF. exists q, (CErr E_RX_QUEUE_OVERFLOW), l. split; [reflexivity|]. split; [|exact R].
      apply CsFull; auto. destruct R. lia.
  - unfold crq_take. destruct l as [|m l].
    + pose proof R as [_ _ _ H4 _ _]. cbn [length] in H4. rewrite H4. exists q, (CMsg None), []. repeat split; try apply R. constructor.
    + pose proof R as [_ _ _ H4 _ _]. cbn [length] in H4. rewrite H4. change (0 <? S (length l))%nat with true. cbv iota.
      destruct (ring_take _ _ _ _ _ _ _ R) as [-> R']. rewrite H4 in R'.
      eexists _, _, l. split; [reflexivity|]. split; [constructor|exact R'].
Qed.
Lemma crun L : (0 < L)%nat -> forall ops, Forall cop_ok ops ->
  exists q outs l, runs (crq_step L) (crq_zero L) ops = Some (q, outs) /\ steps (cstep L) [] ops l outs.
Proof.
  intros HL ops Ho. destruct (runs_steps (crq_step L) (cstep L) (crel L) cop_ok (csim L HL) ops (crq_zero L) []) as (q & rs & l & A & B & _); auto.
  - apply ring_zero. exact HL.
  - eauto.
Qed.
Lemma cstep_det L l o l1 r1 l2 r2 : cstep L l o l1 r1 -> cstep L l o l2 r2 -> l1 = l2 /\ r1 = r2.
Proof. intros A B. inversion A; subst; inversion B; subst; try contradiction; try lia; auto. Qed.
Lemma csteps_fifo L l ops l' outs : steps (cstep L) l ops l' outs ->
  exists acc, accepted_msgs ops outs acc /\ l ++ acc = taken outs ++ l'.
Proof.
  induction 1 as [a|a o b r os c rs S _ (acc & IA & IE)].
  - exists []. split; [constructor|]. cbn. rewrite app_nil_r. reflexivity.
  - inversion S; subst; cbn [taken].
    + eexists. split; [apply AmAcc; eauto|]. rewrite <- IE. rewrite <- app_assoc. reflexivity.
    + eexists. split; [apply AmFull; eauto|]. exact IE.
    + eexists. split; [apply AmDrop; eauto|]. exact IE.
    + eexists. split; [apply AmTake; eauto|]. cbn. rewrite IE. reflexivity.
    + eexists. split; [apply AmTake; eauto|]. exact IE.
Qed.
Lemma csteps_bound L : forall ops l l' outs, steps (cstep L) l ops l' outs -> (length l <= L)%nat -> (length l' <= L)%nat.
Proof.
  induction 1 as [a|a o b r os c rs S _ IH]; auto. intro K. apply IH. inversion S; subst; rewrite ?app_length; cbn in *; lia.
Qed.
Lemma cfifo L ops q outs : (0 < L)%nat -> Forall cop_ok ops -> runs (crq_step L) (crq_zero L) ops = Some (q, outs) ->
  exists acc pend, accepted_msgs ops outs acc /\ acc = taken outs ++ pend /\ (length pend <= L)%nat.
Proof.
  intros HL Ho H. destruct (crun L HL ops Ho) as (q' & outs' & l & A & B). rewrite H in A. injection A as <- <-.
  destruct (csteps_fifo _ _ _ _ _ B) as (acc & C & D). exists acc, l. split; [exact C|]. split; [exact D|].
  apply (csteps_bound _ _ _ _ _ B). cbn. lia.
Qed.

(** ** data messages *)
Definition drel (L : nat) (q : dtq) (l : list dframe) : Prop :=
  exists sl, ring L (dq_slots q) (dq_write q) (dq_read q) (dq_state q) sl /\ map frame_of sl = l /\
  Forall (fun s => length (d_data s) = 8%nat) (dq_slots q).
Lemma ident_async nr : 1 <= nr <= 128 -> ident_of AsyncTx nr 0 = id_of nr.
Proof. intro H. unfold ident_of, id_of, can_ident, u16. cbn [class_base has_objects]. change (N.of_nat 0) with 0. lia. Qed.
Lemma set_nth_Forall {A} (P : A -> Prop) l i x : Forall P l -> P x -> Forall P (set_nth l i x).
Proof. intro H. revert i. induction H; intros [|i] Hx; cbn; constructor; auto. Qed.
Lemma firstn_slot n (src data : list byte) : (n <= length src)%nat -> firstn n (firstn n src ++ skipn n data) = firstn n src.
Proof. intro H. rewrite firstn_app, firstn_firstn, Nat.min_id. rewrite firstn_length_le by exact H. rewrite Nat.sub_diag. cbn. apply app_nil_r. Qed.
Lemma dsim L (HL : (0 < L)%nat) q l o : drel L q l -> dop_ok o ->
  exists q' r l', dtq_step L q o = Some (q', r) /\ dstep L l o l' r /\ drel L q' l'.
Proof.
  intros (sl & R & M & F) K. assert (LL : length l = length sl) by (rewrite <- M; apply map_length).
  pose proof R as [H1 H2 H3 H4 H5 H6]. pose proof (ring_w _ _ _ _ _ _ R) as Hw.
  destruct o as [nr ty dlc src|hw]; cbn [dtq_step].
  - unfold dtq_put. cbn in K. destruct K as (Kn & Kt & Ks).
    destruct (dq_state q <? L)%nat eqn:EF; cbn [negb].
    2:{ apply Nat.ltb_ge in EF. exists q, (DErr E_DATA_TX_OVERFLOW), l. split; [reflexivity|]. split; [apply DsFull; lia|]. exists sl. auto. }
    apply Nat.ltb_lt in EF.
    destruct (8 <? dlc) eqn:ED.
    { apply N.ltb_lt in ED. exists q, (DErr E_DATA_TX_DLC), l. split; [reflexivity|]. split; [apply DsDlc; auto; lia|]. exists sl. auto. }
    apply N.ltb_ge in ED.
    destruct (length src <? N.to_nat dlc)%nat eqn:E8; [apply Nat.ltb_lt in E8; lia|].
    destruct (nth_error_lt_some _ (dq_slots q) (dq_write q)) as [s0 E0]; [lia|]. rewrite E0.
    assert (L0 : length (d_data s0) = 8%nat). { rewrite Forall_forall in F. apply F. eapply nth_error_In. exact E0. }
    assert (LN : length (firstn (N.to_nat dlc) src ++ skipn (N.to_nat dlc) (d_data s0)) = 8%nat).
    { rewrite app_length, firstn_length_le, skipn_length by lia. lia. }
    destruct ty; [| |contradiction].
    + eexists _, _, _. split; [reflexivity|]. split; [apply DsAccept; lia|].
      eexists. split; [cbn [dq_slots dq_write dq_read dq_state]; apply ring_put; [exact R|lia]|]. split.
      * rewrite map_app, M. cbn [map]. unfold frame_of. cbn [d_id d_dlc d_data]. rewrite firstn_slot by lia. rewrite ident_async by lia. reflexivity.
      * cbn [dq_slots]. apply set_nth_Forall; auto.
    + eexists _, _, l. split; [reflexivity|]. split; [apply DsMaster; lia|].
      exists sl. split; [cbn [dq_slots dq_write dq_read dq_state]; apply ring_free; [exact R|lia]|]. split; auto.
      cbn [dq_slots]. apply set_nth_Forall; auto.
  - unfold dtq_handle. destruct sl as [|m sl].
    + cbn [length] in H4. rewrite H4. subst l. exists q, (DSent ERR_OK None), []. split; [reflexivity|]. split; [constructor|]. exists []. auto.
    + cbn [length] in H4. rewrite H4. change (0 <? S (length sl))%nat with true. cbv iota.
      destruct (ring_take _ _ _ _ _ _ _ R) as [-> R']. rewrite H4 in R'. subst l. cbn [map].
      destruct (hw =? ERR_OK) eqn:EH.
      * apply N.eqb_eq in EH. subst hw. eexists _, _, _. split; [reflexivity|]. split; [apply DsSent|]. exists sl. auto.
      * apply N.eqb_neq in EH. exists q, (DSent hw (Some (frame_of m))), (frame_of m :: map frame_of sl).
        split; [reflexivity|]. split; [apply DsRetry; auto|]. exists (m :: sl). auto.
Qed.
Lemma drel_zero L : (0 < L)%nat -> drel L (dtq_zero L) [].
Proof.
  intro H. exists []. split; [apply ring_zero; exact H|]. split; auto. apply Forall_forall. intros x Hx. apply repeat_spec in Hx. subst. reflexivity.
Qed.
Lemma drun L : (0 < L)%nat -> forall ops, Forall dop_ok ops ->
  exists q outs l, runs (dtq_step L) (dtq_zero L) ops = Some (q, outs) /\ steps (dstep L) [] ops l outs.
Proof.
  intros HL ops Ho. destruct (runs_steps (dtq_step L) (dstep L) (drel L) dop_ok (dsim L HL) ops (dtq_zero L) []) as (q & rs & l & A & B & _); auto.
  - apply drel_zero. exact HL.
  - eauto.
Qed.
Lemma dsteps_fifo L l ops l' outs : steps (dstep L) l ops l' outs -> l ++ accepted_frames ops outs = sent_frames outs ++ l'.
Proof.
  induction 1 as [a|a o b r os c rs S _ IE].
  - cbn. apply app_nil_r.
  - inversion S; subst; cbn [sent_frames accepted_frames]; auto.
    + change (ERR_OK =? 0) with true. cbv iota. rewrite <- IE. rewrite <- app_assoc. reflexivity.
    + change (ERR_OK =? 0) with true. cbv iota. cbn. rewrite IE. reflexivity.
    + destruct (hw =? 0) eqn:E; [apply N.eqb_eq in E; contradiction|]. exact IE.
Qed.
Lemma dfifo L ops q outs : (0 < L)%nat -> Forall dop_ok ops -> runs (dtq_step L) (dtq_zero L) ops = Some (q, outs) ->
  exists pend, accepted_frames ops outs = sent_frames outs ++ pend /\ (length pend <= L)%nat /\ dq_state q = length pend.
Proof.
  intros HL Ho H.
  destruct (runs_steps (dtq_step L) (dstep L) (drel L) dop_ok (dsim L HL) ops (dtq_zero L) []) as (q' & rs & l & A & B & (sl & R & M & _)); auto.
  { apply drel_zero. exact HL. }
  rewrite H in A. injection A as <- <-. exists l. split; [exact (dsteps_fifo _ _ _ _ _ B)|].
  pose proof (map_length frame_of sl) as ML. rewrite M in ML. destruct R. lia.
Qed.
(** when the controller accepts everything that is left, everything accepted has been sent *)
Lemma dsteps_app L ops1 : forall l l1 r1 ops2 l2 r2, steps (dstep L) l ops1 l1 r1 -> steps (dstep L) l1 ops2 l2 r2 ->
  steps (dstep L) l (ops1 ++ ops2) l2 (r1 ++ r2).
Proof. induction ops1; intros l l1 r1 ops2 l2 r2 H1 H2; inversion H1; subst; cbn; auto. econstructor; eauto. Qed.

(** ** preemption *)
Definition rings (L : nat) (q : dtq) (n : nat) (sl : list dslot) : Prop :=
  ring L (dq_slots q) (dq_write q) (dq_read q) n sl /\ Forall (fun s => length (d_data s) = 8%nat) (dq_slots q).
Definition wslot (q : dtq) (P : dslot -> Prop) : Prop := exists s, nth_error (dq_slots q) (dq_write q) = Some s /\ P s.
Definition new_frame (t : task) : dframe := (id_of (t_nr t), t_dlc t, firstn (N.to_nat (t_dlc t)) (t_src t)).
Definition pc_inv (L : nat) (q : dtq) (t : task) (sl : list dslot) : Prop :=
  let n := N.to_nat (t_dlc t) in
  (1 <= t_nr t <= 128 /\ (n <= length (t_src t))%nat) /\
  match t_pc t with
  | KCheck => rings L q (dq_state q) sl
  | KByte k => t_dlc t <= 8 /\ (k < n)%nat /\ (length sl < L)%nat /\ rings L q (dq_state q) sl /\
               wslot q (fun s => firstn k (d_data s) = firstn k (t_src t))
  | KDlc => t_dlc t <= 8 /\ (length sl < L)%nat /\ rings L q (dq_state q) sl /\ wslot q (fun s => firstn n (d_data s) = firstn n (t_src t))
  | KId => t_dlc t <= 8 /\ (length sl < L)%nat /\ rings L q (dq_state q) sl /\
           wslot q (fun s => d_dlc s = t_dlc t /\ firstn n (d_data s) = firstn n (t_src t))
  | KWrite => (length sl < L)%nat /\ rings L q (dq_state q) sl /\ wslot q (fun s => frame_of s = new_frame t)
  | KLoad => dq_state q = length sl /\ exists x, rings L q (dq_state q + 1) (sl ++ [x]) /\ frame_of x = new_frame t
  | KStore m => m = dq_state q /\ dq_state q = length sl /\ exists x, rings L q (dq_state q + 1) (sl ++ [x]) /\ frame_of x = new_frame t
  end.
Definition cinv (L : nat) (s : csys) (pend : list dframe) : Prop :=
  exists sl, map frame_of sl = pend /\ dq_state (c_q s) = length sl /\
  match c_task s with None => rings L (c_q s) (dq_state (c_q s)) sl | Some t => pc_inv L (c_q s) t sl end.

Lemma rings_state L q n sl : rings L q n sl -> n = length sl.
Proof. intros [[] _]. auto. Qed.
Lemma slot_upd_ok L q sl f : rings L q (dq_state q) sl -> (length sl < L)%nat ->
  (forall s, length (d_data s) = 8%nat -> length (d_data (f s)) = 8%nat) ->
  exists s, nth_error (dq_slots q) (dq_write q) = Some s /\ length (d_data s) = 8%nat /\
  slot_upd q f = Some (DTQ (set_nth (dq_slots q) (dq_write q) (f s)) (dq_write q) (dq_read q) (dq_state q)) /\
  rings L (DTQ (set_nth (dq_slots q) (dq_write q) (f s)) (dq_write q) (dq_read q) (dq_state q)) (dq_state q) sl /\
  nth_error (set_nth (dq_slots q) (dq_write q) (f s)) (dq_write q) = Some (f s).
Proof.
  intros [R F] Hl Hf. pose proof (ring_w _ _ _ _ _ _ R) as Hw. pose proof (rg_len _ _ _ _ _ _ R) as HL.
  destruct (nth_error_lt_some _ (dq_slots q) (dq_write q)) as [s E]; [lia|].
  assert (L0 : length (d_data s) = 8%nat). { rewrite Forall_forall in F. apply F. eapply nth_error_In. exact E. }
  exists s. split; [exact E|]. split; [exact L0|]. unfold slot_upd. rewrite E. split; [reflexivity|]. split.
  - split; cbn [dq_slots dq_write dq_read dq_state]; [apply ring_free; auto|apply set_nth_Forall; auto].
  - apply set_nth_same. lia.
Qed.
Lemma firstn_set_nth {A} : forall (l : list A) k x, (k < length l)%nat -> firstn (S k) (set_nth l k x) = firstn k l ++ [x].
Proof. induction l; intros [|k] x H; cbn [length] in H; try lia; [reflexivity|]. cbn [set_nth firstn app]. f_equal. apply IHl. lia. Qed.
Lemma firstn_snoc {A} : forall (l : list A) k x, nth_error l k = Some x -> firstn (S k) l = firstn k l ++ [x].
Proof. induction l; intros [|k] x H; cbn in H; try discriminate; [injection H as ->; reflexivity|]. cbn [firstn app]. f_equal. apply IHl. exact H. Qed.

Lemma access_inv L q t sl : (0 < L)%nat -> dq_state q = length sl -> pc_inv L q t sl -> exists q' t' r sl',
  task_access L q t = Some (q', (t', r)) /\ cinv L (CSys q' t') (map frame_of sl') /\
  (match r with Some e => if e =? ERR_OK then map frame_of sl' = map frame_of sl ++ [new_frame t] else sl' = sl | None => sl' = sl end) /\
  (match t' with Some t1 => t_nr t1 = t_nr t /\ t_dlc t1 = t_dlc t /\ t_src t1 = t_src t /\ r = None | None => r <> None end).
Proof.
  intros HL HS [(Kn & Ks) P]. destruct t as [pc nr dlc src]. cbn [t_pc t_nr t_dlc t_src] in *. unfold task_access. cbn [t_pc t_nr t_dlc t_src].
  assert (ST : forall q' t', cinv L (CSys q' t') (map frame_of sl) -> cinv L (CSys q' t') (map frame_of sl)) by auto.
  destruct pc as [|k| | | | |m].
  - destruct (dq_state q <? L)%nat eqn:EF; cbn [negb].
    2:{ exists q, None, (Some E_DATA_TX_OVERFLOW), sl. split; [reflexivity|]. split; [exists sl; auto|]. split; [reflexivity|discriminate]. }
    destruct (8 <? dlc) eqn:ED.
    { exists q, None, (Some E_DATA_TX_DLC), sl. split; [reflexivity|]. split; [exists sl; auto|]. split; [reflexivity|discriminate]. }
    apply N.ltb_ge in ED. apply Nat.ltb_lt in EF.
    assert (W : wslot q (fun s => firstn 0 (d_data s) = firstn 0 src)).
    { destruct P as [R F]. pose proof (ring_w _ _ _ _ _ _ R) as Hw. pose proof (rg_len _ _ _ _ _ _ R).
      destruct (nth_error_lt_some _ (dq_slots q) (dq_write q)) as [s E]; [lia|]. exists s. auto. }
    eexists _, _, _, sl. split; [reflexivity|]. split.
    + exists sl. cbn [c_q c_task]. split; [reflexivity|]. split; [exact HS|]. destruct (0 <? N.to_nat dlc)%nat eqn:E0.
      * apply Nat.ltb_lt in E0. split; [auto|]. cbn [t_pc t_nr t_dlc t_src]. repeat (split; [auto; lia|]). auto.
      * apply Nat.ltb_ge in E0. assert (Z : N.to_nat dlc = 0%nat) by lia. split; [auto|]. cbn [t_pc t_nr t_dlc t_src].
        rewrite Z. repeat (split; [auto; lia|]). auto.
    + split; [reflexivity|]. cbn. auto.
  - destruct P as (Kd & Kk & Kl & R & (s0 & E0 & F0)).
    destruct (nth_error_lt_some _ src k) as [x Ex]; [lia|]. rewrite Ex.
    destruct (slot_upd_ok L q sl (fun sl => DSlot (d_id sl) (d_dlc sl) (set_nth (d_data sl) k x)) R Kl) as (s & E & L8 & U & R' & E').
    { intros s Hs. cbn. rewrite set_nth_length. exact Hs. }
    rewrite U. rewrite E0 in E. injection E as ->.
    assert (FS : firstn (S k) (set_nth (d_data s) k x) = firstn (S k) src).
    { rewrite firstn_set_nth by lia. rewrite (firstn_snoc src k x Ex). rewrite F0. reflexivity. }
    eexists _, _, _, sl. split; [reflexivity|]. split.
    + exists sl. cbn [c_q c_task dq_state]. split; [reflexivity|]. split; [exact HS|].
      destruct (S k <? N.to_nat dlc)%nat eqn:EK.
      * apply Nat.ltb_lt in EK. split; [auto|]. cbn [t_pc t_nr t_dlc t_src dq_state]. repeat (split; [auto; lia|]).
        try (split; [exact R'|]). eexists. split; [exact E'|exact FS].
      * apply Nat.ltb_ge in EK. split; [auto|]. cbn [t_pc t_nr t_dlc t_src dq_state]. repeat (split; [auto; lia|]).
        try (split; [exact R'|]). eexists. split; [exact E'|]. replace (N.to_nat dlc) with (S k) by lia. exact FS.
    + split; [reflexivity|]. cbn. auto.
  - destruct P as (Kd & Kl & R & (s0 & E0 & F0)).
    destruct (slot_upd_ok L q sl (fun sl => DSlot (d_id sl) dlc (d_data sl)) R Kl) as (s & E & L8 & U & R' & E').
    { intros s Hs. exact Hs. }
    rewrite U. rewrite E0 in E. injection E as ->. eexists _, _, _, sl. split; [reflexivity|]. split; [|split; [reflexivity|cbn; auto]].
    exists sl. cbn [c_q c_task dq_state]. split; [reflexivity|]. split; [exact HS|]. split; [auto|]. cbn [t_pc t_nr t_dlc t_src dq_state].
    repeat (split; [auto; lia|]). try (split; [exact R'|]). eexists. split; [exact E'|]. cbn. auto.
  - destruct P as (Kd & Kl & R & (s0 & E0 & F0 & F1)).
    destruct (slot_upd_ok L q sl (fun sl => DSlot (ident_of AsyncTx nr 0) (d_dlc sl) (d_data sl)) R Kl) as (s & E & L8 & U & R' & E').
    { intros s Hs. exact Hs. }
    rewrite U. rewrite E0 in E. injection E as ->. eexists _, _, _, sl. split; [reflexivity|]. split; [|split; [reflexivity|cbn; auto]].
    exists sl. cbn [c_q c_task dq_state]. split; [reflexivity|]. split; [exact HS|]. split; [auto|]. cbn [t_pc t_nr t_dlc t_src dq_state].
    repeat (split; [auto; lia|]). try (split; [exact R'|]). eexists. split; [exact E'|].
    unfold frame_of, new_frame. cbn [d_id d_dlc d_data t_nr t_dlc t_src]. rewrite F0, F1, ident_async by lia. reflexivity.
  - destruct P as (Kl & [R F] & (s & E0 & F0)).
    eexists _, _, _, sl. split; [reflexivity|]. split; [|split; [reflexivity|cbn; auto]].
    exists sl. cbn [c_q c_task dq_state]. split; [reflexivity|]. split; [exact HS|]. split; [auto|]. cbn [t_pc t_nr t_dlc t_src dq_state].
    split; [exact HS|]. exists s. split; [|exact F0]. split; [|exact F]. cbn [dq_slots dq_write dq_read dq_state].
    pose proof (ring_put _ _ _ _ _ _ s R Kl) as RP. rewrite (set_nth_id _ _ _ _ E0) in RP. exact RP.
  - destruct P as (_ & x & R & F).
    eexists _, _, _, sl. split; [reflexivity|]. split; [|split; [reflexivity|cbn; auto]].
    exists sl. cbn [c_q c_task dq_state]. split; [reflexivity|]. split; [exact HS|]. split; [auto|]. cbn [t_pc]. split; [reflexivity|]. split; [exact HS|]. exists x. auto.
  - destruct P as (-> & _ & x & R & F).
    eexists _, _, _, (sl ++ [x]). split; [reflexivity|]. split; [|split; [|discriminate]].
    + exists (sl ++ [x]). cbn [c_q c_task dq_state]. split; [reflexivity|]. split; [rewrite app_length; cbn; lia|]. exact R.
    + change (ERR_OK =? ERR_OK) with true. cbv iota. rewrite map_app. cbn [map]. rewrite F. reflexivity.
Qed.

(** the interrupt *)
Lemma int_inv L s hw sl : (0 < L)%nat -> in_increment s = false -> cinv L s (map frame_of sl) -> exists q' e f pend',
  dtq_handle L (c_q s) hw = Some (q', (e, f)) /\ cinv L (CSys q' (c_task s)) pend' /\
  map frame_of sl = (match f with Some x => if hw =? ERR_OK then [x] else [] | None => [] end) ++ pend'.
Proof.
  intros HL NI (sl' & M & HS & P). rewrite <- M. clear sl M. rename sl' into sl.
  unfold dtq_handle. destruct sl as [|m sl].
  - cbn [length] in HS. rewrite HS. change (0 <? 0)%nat with false. cbv iota. exists (c_q s), ERR_OK, None, []. split; [reflexivity|]. split; [|reflexivity].
    exists []. destruct s. auto.
  - cbn [length] in HS. rewrite HS. change (0 <? S (length sl))%nat with true. cbv iota.
    assert (HD : nth_error (dq_slots (c_q s)) (dq_read (c_q s)) = Some m).
    { destruct (c_task s) as [t|].
      - destruct P as [_ P]. destruct (t_pc t); repeat match goal with H : _ /\ _ |- _ => destruct H | H : exists _, _ |- _ => destruct H | H : rings _ _ _ _ |- _ => destruct H end;
        match goal with
        | H : ring _ _ _ _ _ (m :: sl) |- _ => exact (proj1 (ring_take _ _ _ _ _ _ _ H))
        | H : ring _ _ _ _ _ ((m :: sl) ++ [?x]) |- _ => exact (proj1 (ring_take _ _ _ _ _ m (sl ++ [x]) H))
        end.
      - destruct P as [R _]. exact (proj1 (ring_take _ _ _ _ _ _ _ R)). }
    rewrite HD. destruct (hw =? ERR_OK) eqn:EH.
    2:{ exists (c_q s), hw, (Some (frame_of m)), (frame_of m :: map frame_of sl). split; [reflexivity|]. split; [|reflexivity]. exists (m :: sl). destruct s. auto. }
    eexists _, hw, (Some (frame_of m)), (map frame_of sl). split; [reflexivity|]. split; [|reflexivity].
    exists sl. cbn [c_q c_task dq_state]. split; [reflexivity|]. split; [lia|].
    assert (RT : forall n l, rings L (c_q s) n (m :: l) ->
      rings L (DTQ (dq_slots (c_q s)) (dq_write (c_q s)) (next_idx L (dq_read (c_q s))) (S (length sl) - 1)) (n - 1) l).
    { intros n l [R F]. split; [|exact F]. cbn [dq_slots dq_write dq_read dq_state]. exact (proj2 (ring_take _ _ _ _ _ _ _ R)). }
    rewrite HS in P. cbn [length] in P. set (q' := DTQ _ _ _ _) in *.
    assert (Q1 : dq_state q' = (S (length sl) - 1)%nat) by reflexivity.
    destruct (c_task s) as [t|] eqn:ET.
    + destruct P as [K P]. split; [exact K|]. rewrite Q1. unfold in_increment in NI. rewrite ET in NI. destruct t as [pc nr dlc src]. cbn [t_pc] in *.
      assert (WS : forall Q, wslot (c_q s) Q -> wslot q' Q) by (intros Q W; exact W).
      destruct pc as [|k| | | | |m']; try discriminate NI; rewrite ?HS in P; cbn [length] in P.
      * apply RT. exact P.
      * destruct P as (A & B & C & D & E). repeat (split; [auto; lia|]). try (split; [apply RT; exact D|]). auto.
      * destruct P as (A & C & D & E). repeat (split; [auto; lia|]). try (split; [apply RT; exact D|]). auto.
      * destruct P as (A & C & D & E). repeat (split; [auto; lia|]). try (split; [apply RT; exact D|]). auto.
      * destruct P as (C & D & E). repeat (split; [auto; lia|]). try (split; [apply RT; exact D|]). auto.
      * destruct P as (C & x & D & E). split; [lia|]. exists x. split; [|exact E].
        replace (S (length sl) - 1 + 1)%nat with (S (length sl) + 1 - 1)%nat by lia. apply (RT _ (sl ++ [x])). exact D.
    + apply RT. exact P.
Qed.

Lemma conc_run L (HL : (0 < L)%nat) : forall es s pend, cinv L s pend ->
  Forall cev_ok es -> atomic_inc L s es -> exists s' obs pend',
  runs (csys_step L) s es = Some (s', obs) /\ cinv L s' pend' /\ pend ++ obs_accepted obs = obs_sent obs ++ pend'.
Proof.
  induction es as [|e es IH]; intros s pend I K A.
  - exists s, [], pend. split; [reflexivity|]. split; [exact I|]. cbn. rewrite app_nil_r. reflexivity.
  - inversion K as [|? ? K1 K2]; subst. cbn [atomic_inc] in A. destruct A as [A1 A2]. cbn [runs].
    destruct e as [nr dlc src| |hw].
    + cbn [csys_step] in *. destruct (c_task s) as [t|] eqn:ET.
      * destruct (IH s pend I K2 A2) as (s' & obs & p' & E & I' & F).
        rewrite E. exists s', (OQuiet :: obs), p'. auto.
      * destruct I as (sl & M & HS & P). rewrite ET in P.
        destruct (IH (CSys (c_q s) (Some (Task KCheck nr dlc src))) pend) as (s' & obs & p' & E & I' & F); auto.
        { exists sl. cbn [c_q c_task]. split; [exact M|]. split; [exact HS|]. split; [exact K1|exact P]. }
        rewrite E. exists s', (OQuiet :: obs), p'. auto.
    + cbn [csys_step] in *. destruct (c_task s) as [t|] eqn:ET.
      * pose proof I as (sl & M & HS & P). rewrite ET in P.
        destruct (access_inv L (c_q s) t sl HL HS P) as (q' & t' & r & sl' & E1 & I1 & R1 & T1). rewrite E1 in *.
        destruct (IH (CSys q' t') _ I1 K2 A2) as (s' & obs & p' & E & I' & F). rewrite E.
        eexists s', _, p'. split; [reflexivity|]. split; [exact I'|]. subst pend. destruct r as [err|].
        -- destruct (err =? ERR_OK); cbn [obs_accepted obs_sent].
           ++ rewrite R1 in F. rewrite <- app_assoc in F. exact F.
           ++ subst sl'. exact F.
        -- subst sl'. exact F.
      * destruct (IH s pend I K2 A2) as (s' & obs & p' & E & I' & F).
        rewrite E. exists s', (OQuiet :: obs), p'. auto.
    + cbn [csys_step] in *. pose proof I as (sl & M & HS & P).
      destruct (int_inv L s hw sl HL A1) as (q' & e & f & p1 & E1 & I1 & F1); [rewrite M; exact I|]. rewrite E1 in *.
      destruct (IH _ _ I1 K2 A2) as (s' & obs & p' & E & I' & F). rewrite E.
      eexists s', _, p'. split; [reflexivity|]. split; [exact I'|]. rewrite <- M, F1.
      destruct f as [x|]; cbn; auto. destruct (hw =? ERR_OK); cbn; auto. f_equal. exact F.
Qed.
Lemma conc_ok L es : (0 < L)%nat -> Forall cev_ok es -> atomic_inc L (CSys (dtq_zero L) None) es ->
  exists s obs pend, runs (csys_step L) (CSys (dtq_zero L) None) es = Some (s, obs) /\
  obs_accepted obs = obs_sent obs ++ pend /\ dq_state (c_q s) = length pend.
Proof.
  intros HL K A. destruct (conc_run L HL es (CSys (dtq_zero L) None) []) as (s & obs & p & E & (sl & M & HS & _) & F); auto.
  - exists []. split; [reflexivity|]. split; [reflexivity|]. destruct (drel_zero L HL) as (sl & R & M & Fa). destruct sl; [|discriminate]. split; auto.
  - exists s, obs, p. split; [exact E|]. split; [exact F|]. rewrite HS, <- M. symmetry. apply map_length.
Qed.
(** uninterrupted, the accesses have the effect of the function *)
Lemma runs_app {S O R} (step : S -> O -> option (S * R)) : forall o1 s s1 r1 o2 s2 r2, runs step s o1 = Some (s1, r1) -> runs step s1 o2 = Some (s2, r2) ->
  runs step s (o1 ++ o2) = Some (s2, r1 ++ r2).
Proof.
  induction o1 as [|o o1 IH]; intros s s1 r1 o2 s2 r2 H1 H2; cbn in *.
  - injection H1 as <- <-. exact H2.
  - destruct (step s o) as [[s' r]|]; [|discriminate]. destruct (runs step s' o1) as [[s'' rs]|] eqn:E; [|discriminate]. injection H1 as <- <-.
    rewrite (IH _ _ _ _ _ _ E H2). reflexivity.
Qed.
Lemma skip_set {A} : forall (l : list A) k x, (k < length l)%nat -> set_nth l k x = firstn k l ++ x :: skipn (S k) l.
Proof. induction l; intros [|k] x H; cbn [length] in H; try lia; [reflexivity|]. cbn [set_nth firstn skipn app]. f_equal. apply IHl. lia. Qed.
Lemma skip1 {A} : forall (l : list A) k, skipn 1 (skipn k l) = skipn (S k) l.
Proof. induction l as [|a l IH]; intros [|k]; auto. change (skipn 1 (skipn k l) = skipn (S k) l). apply IH. Qed.
Lemma bytes_run L q nr dlc src sl : (dq_write q < length (dq_slots q))%nat -> length (d_data sl) = 8%nat -> dlc <= 8 -> (N.to_nat dlc <= length src)%nat ->
  forall j k, (k < N.to_nat dlc)%nat -> (N.to_nat dlc - k = j)%nat -> forall q1,
  q1 = DTQ (set_nth (dq_slots q) (dq_write q) (DSlot (d_id sl) (d_dlc sl) (firstn k src ++ skipn k (d_data sl)))) (dq_write q) (dq_read q) (dq_state q) ->
  exists os, runs (csys_step L) (CSys q1 (Some (Task (KByte k) nr dlc src))) (repeat VAccess j) =
    Some (CSys (DTQ (set_nth (dq_slots q) (dq_write q) (DSlot (d_id sl) (d_dlc sl) (firstn (N.to_nat dlc) src ++ skipn (N.to_nat dlc) (d_data sl)))) (dq_write q) (dq_read q) (dq_state q))
               (Some (Task KDlc nr dlc src)), os) /\ Forall (eq OQuiet) os.
Proof.
  intros Hw L8 Hd Hs. induction j as [|j IH]; intros k Hk Hj q1 ->; [lia|].
  cbn [repeat runs csys_step c_task c_q]. unfold task_access. cbn [t_pc t_src t_dlc t_nr].
  destruct (nth_error_lt_some _ src k) as [x Ex]; [lia|]. rewrite Ex.
  unfold slot_upd. cbn [dq_slots dq_write dq_read dq_state]. rewrite set_nth_same by lia. rewrite set_nth_set_nth. cbn [d_id d_dlc d_data].
  assert (ES : set_nth (firstn k src ++ skipn k (d_data sl)) k x = firstn (S k) src ++ skipn (S k) (d_data sl)).
  { rewrite skip_set by (rewrite app_length, firstn_length_le, skipn_length; lia).
    rewrite (firstn_snoc src k x Ex). rewrite firstn_app, firstn_firstn, Nat.min_id, firstn_length_le, Nat.sub_diag by lia. cbn [firstn]. rewrite app_nil_r.
    rewrite <- app_assoc. cbn [app]. f_equal. f_equal. rewrite skipn_app. rewrite skipn_all2 by (rewrite firstn_length_le; lia).
    rewrite firstn_length_le by lia. cbn [app]. replace (S k - k)%nat with 1%nat by lia. rewrite skip1. reflexivity. }
  rewrite ES. destruct (S k <? N.to_nat dlc)%nat eqn:EK.
  - apply Nat.ltb_lt in EK. destruct (IH (S k) EK ltac:(lia) _ eq_refl) as (os & E & F).
    cbn [csys_step] in E. rewrite E. eexists. split; [reflexivity|]. constructor; auto.
  - apply Nat.ltb_ge in EK. assert (N.to_nat dlc = S k) by lia. assert (j = 0%nat) by lia. subst j. cbn [repeat runs].
    eexists. split; [rewrite H; reflexivity|]. repeat constructor.
Qed.
Lemma micro_put L q nr dlc src sl q' e : nth_error (dq_slots q) (dq_write q) = Some sl -> length (d_data sl) = 8%nat -> (N.to_nat dlc <= length src)%nat ->
  dtq_put L q nr DSlave dlc src = Some (q', e) ->
  exists k os, runs (csys_step L) (CSys q None) (VCall nr dlc src :: repeat VAccess k) = Some (CSys q' None, os) /\
  Forall (eq OQuiet) (removelast os) /\ last os OQuiet = (if e =? ERR_OK then OAccepted nr dlc src else ORefused e).
Proof.
  intros E0 L8 Hs H. unfold dtq_put in H. pose proof (nth_error_some_lt _ _ _ _ E0) as Hw.
  destruct (dq_state q <? L)%nat eqn:EF; cbn [negb] in H.
  2:{ injection H as <- <-. exists 1%nat, [OQuiet; ORefused E_DATA_TX_OVERFLOW]. split; [|split; [repeat constructor|reflexivity]].
      cbn [runs csys_step c_task c_q repeat]. unfold task_access. cbn [t_pc]. rewrite EF. reflexivity. }
  destruct (8 <? dlc) eqn:ED.
  { injection H as <- <-. exists 1%nat, [OQuiet; ORefused E_DATA_TX_DLC]. split; [|split; [repeat constructor|reflexivity]].
    cbn [runs csys_step c_task c_q repeat]. unfold task_access. cbn [t_pc t_dlc]. rewrite EF, ED. reflexivity. }
  apply N.ltb_ge in ED. destruct (length src <? N.to_nat dlc)%nat eqn:E8; [apply Nat.ltb_lt in E8; lia|]. rewrite E0 in H. injection H as <- <-.
  set (n := N.to_nat dlc) in *. set (qn := DTQ (set_nth (dq_slots q) (dq_write q) (DSlot (d_id sl) (d_dlc sl) (firstn n src ++ skipn n (d_data sl)))) (dq_write q) (dq_read q) (dq_state q)).
  assert (B : exists os, runs (csys_step L) (CSys q None) (VCall nr dlc src :: repeat VAccess (1 + n)) = Some (CSys qn (Some (Task KDlc nr dlc src)), os) /\ Forall (eq OQuiet) os).
  { cbn [repeat runs csys_step c_task c_q plus]. unfold task_access at 1. cbn [t_pc t_dlc t_nr t_src]. rewrite EF. cbn [negb].
    destruct (8 <? dlc) eqn:ED'; [apply N.ltb_lt in ED'; lia|]. fold n.
    destruct (0 <? n)%nat eqn:EN.
    - apply Nat.ltb_lt in EN. destruct (bytes_run L q nr dlc src sl Hw L8 ED Hs n 0) with (q1 := q) as (os & E & F); auto; try lia.
      { cbn [firstn skipn app]. destruct sl as [a1 a2 a3]. cbn. rewrite (set_nth_id _ _ _ _ E0). destruct q. reflexivity. }
      fold n qn in E. cbn [csys_step] in E. rewrite E. eexists. split; [reflexivity|]. constructor; auto.
    - apply Nat.ltb_ge in EN. assert (N0 : n = 0%nat) by lia. unfold qn. rewrite N0. cbn [repeat runs firstn skipn app].
      exists [OQuiet; OQuiet]. split; [|repeat constructor]. destruct sl as [a1 a2 a3]. cbn. rewrite (set_nth_id _ _ _ _ E0). destruct q. reflexivity. }
  destruct B as (os & B & F).
  exists ((1 + n) + 5)%nat, (os ++ [OQuiet; OQuiet; OQuiet; OQuiet; OAccepted nr dlc src]).
  assert (RA : forall a b, repeat VAccess (a + b) = repeat VAccess a ++ repeat VAccess b) by (induction a; cbn; intros; f_equal; auto).
  rewrite RA. rewrite app_comm_cons. split; [|split].
  - eapply runs_app; [exact B|]. cbn [repeat runs csys_step c_task c_q]. unfold qn, task_access, slot_upd. cbn [t_pc t_dlc t_nr t_src dq_slots dq_write dq_read dq_state].
    rewrite !set_nth_same by (rewrite ?set_nth_length; lia). cbn [dq_slots dq_write dq_read dq_state c_task c_q t_pc t_dlc t_nr t_src].
    rewrite !set_nth_same by (rewrite ?set_nth_length; lia). cbn [dq_slots dq_write dq_read dq_state c_task c_q t_pc t_dlc t_nr t_src].
    rewrite !set_nth_set_nth. cbn [d_id d_dlc d_data]. reflexivity.
  - replace (os ++ [OQuiet; OQuiet; OQuiet; OQuiet; OAccepted nr dlc src]) with ((os ++ [OQuiet; OQuiet; OQuiet; OQuiet]) ++ [OAccepted nr dlc src]) by (rewrite <- app_assoc; reflexivity).
    rewrite removelast_last. apply Forall_app. split; auto; repeat constructor.
  - replace (os ++ [OQuiet; OQuiet; OQuiet; OQuiet; OAccepted nr dlc src]) with ((os ++ [OQuiet; OQuiet; OQuiet; OQuiet]) ++ [OAccepted nr dlc src]) by (rewrite <- app_assoc; reflexivity).
    rewrite last_last. reflexivity.
Qed.
(** the lost update *)
Definition race : list cev :=
  VCall 5 1 [170] :: repeat VAccess 7 ++ [VCall 5 1 [187]] ++ repeat VAccess 6 ++ [VInt 0; VAccess; VInt 0; VInt 0].
Definition race_end : option (csys * list cobs) := runs (csys_step 4) (CSys (dtq_zero 4) None) race.
