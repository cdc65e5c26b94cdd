(** Errors reported by the main program while interrupts report and read errors (C77). *)
From Verif Require Import Words WordsFacts ErrModel ErrSpec ErrProofs ErrProps ErrIrqModel ErrIrqSpec ErrIrq.

(** C77: if the interrupts hit the reports only before the count is read or after the entry is complete, every error that was
    reported, by the main program or by an interrupt, is read once, complete and in the order of the reports, or is still stored. *)
Theorem C77_points_partial : forall size h, (2 <= size)%nat -> never_fills size (flat h) -> safe_hist size (eq_reset size) h ->
  exists q outs rest, irun size (eq_reset size) h = Some (q, outs) /\ sent (flat h) = got outs ++ rest /\ eq_count q = length rest.
Proof.
  intros size h L N S. destruct (C23_errors_fifo size (flat h) L N) as (q & R & _). destruct (C23_nothing_lost size (flat h) q _ L N R) as (rest & A & B).
  destruct (irun_flat size h _ _ _ S (fun e => fifo_sends _ _ e) R) as (o' & R' & G). exists q, o', rest. split; [exact R'|]. rewrite G. auto.
Qed.
Print Assumptions C77_points_partial.

Definition fills (size : nat) (ops : list eop) : bool := existsb (fun n => (size <? length (pending (firstn n ops)) + 2)%nat) (seq 0 (S (length ops))).
Lemma fills_ok size ops : fills size ops = false -> never_fills size ops.
Proof.
  intros F n. unfold fills in F. destruct (Nat.le_gt_cases n (length ops)) as [L|L].
  - destruct (Nat.ltb_spec size (length (pending (firstn n ops)) + 2)) as [B|B]; [|lia]. assert (existsb (fun n => (size <? length (pending (firstn n ops)) + 2)%nat) (seq 0 (S (length ops))) = true) as X; [|congruence].
    apply existsb_exists. exists n. split; [apply in_seq; lia|apply Nat.ltb_lt; exact B].
  - rewrite firstn_all2 by lia. replace ops with (firstn (length ops) ops) at 1 by apply firstn_all.
    destruct (Nat.ltb_spec size (length (pending (firstn (length ops) ops)) + 2)) as [B|B]; [|lia]. assert (existsb (fun n => (size <? length (pending (firstn n ops)) + 2)%nat) (seq 0 (S (length ops))) = true) as X; [|congruence].
    apply existsb_exists. exists (length ops). split; [apply in_seq; lia|apply Nat.ltb_lt; exact B].
Qed.

(** schedules: the calls [o] at access [k], and the calls [d] after the return *)
Definition at_point (k : nat) (o d : list eop) : nat -> list eop := fun n => if (n =? 27)%nat then d else if (n =? k)%nat then o else [].
Definition quiet : nat -> list eop := fun _ => [].
Lemma at_point_safe q k o d : safe_point (q_ready q) k = true -> safe_call q (at_point k o d).
Proof.
  intros S m H. unfold at_point in H. destruct (m =? 27)%nat eqn:E; [apply Nat.eqb_eq in E; subst m; reflexivity|].
  destruct (m =? k)%nat eqn:E2; [apply Nat.eqb_eq in E2; subst m; exact S|]. destruct (H eq_refl).
Qed.
Definition rep (i : N) : ecall := ECall i 1 10 7 5 2.
(* two reports, the second interrupted by a report and a reading, and everything read at the end *)
Definition h_good : ihist := [(rep 5, quiet); (rep 6, at_point 6 [send_of (rep 7); EGet] [EGet; EGet; EGet])].
Example C77_points_case : never_fills 16 (flat h_good) /\ safe_hist 16 (eq_reset 16) h_good /\
  exists q outs, irun 16 (eq_reset 16) h_good = Some (q, outs) /\ map e_code (got outs) = [5; 7; 6].
Proof.
  split; [|split].
  - apply fills_ok. vm_compute. reflexivity.
  - split; [intros k H; destruct (H eq_refl)|]. intros q1 o1 H. split; [|intros; exact I]. apply at_point_safe.
    assert (option_map (fun x => q_ready (fst x)) (call_irq 16 (rep 5) quiet (eq_reset 16)) = Some true) as X by (vm_compute; reflexivity). rewrite H in X. cbn [option_map fst] in X. injection X as ->. reflexivity.
  - eexists. eexists. split; [vm_compute; reflexivity|vm_compute; reflexivity].
Qed.

(** Finding: the function has no interrupt lock (its comment says "@todo is here a irq lock needed"), and at every other access of a call one
    interrupt suffices: when everything has been read, an error is missing or there is one that was never reported, although the queue
    never held more than it can. *)
Definition complete (h : ihist) (outs : list eout) : Prop := forall e, In e (sent (flat h)) <-> In e (got outs).
Definition drain : list eop := repeat EGet 16.
(* fourteen errors pending, one read by the interrupt *)
Definition h_stale (k : nat) : ihist := map (fun i => (rep (N.of_nat i), quiet)) (seq 100 14) ++ [(rep 6, at_point k [EGet] drain)].
(* another report by the interrupt *)
Definition h_other (k : nat) : ihist := [(rep 5, quiet); (rep 6, at_point k [send_of (rep 7)] drain)].
(* the error is read by the interrupt; an older one was read before *)
Definition h_torn (k : nat) : ihist := [(rep 5, at_point 27 [] [EGet]); (rep 6, at_point k [EGet] drain)].
(* the first report after power-on *)
Definition h_first (k : nat) : ihist := [(rep 6, at_point k [send_of (rep 7)] drain)].
Definition h_bad (k : nat) : ihist :=
  if (k <=? 4)%nat then h_first k else if (k <=? 8)%nat then h_stale k else if (k =? 9)%nat then h_other k else if (k <=? 14)%nat then h_torn k else h_other k.
Definition entry_eqb (a b : entry) : bool :=
  (e_code a =? e_code b) && (e_prio a =? e_prio b) && (e_module a =? e_module b) && (e_info a =? e_info b) && (e_group a =? e_group b).
Definition subset (a b : list entry) : bool := forallb (fun e => existsb (entry_eqb e) b) a.
Lemma incl_subset a b : incl a b -> subset a b = true.
Proof.
  intro I. apply forallb_forall. intros e He. apply existsb_exists. exists e. split; [apply I; exact He|]. unfold entry_eqb. rewrite !N.eqb_refl. reflexivity.
Qed.
Definition is_bad (h : ihist) : bool :=
  negb (fills 16 (flat h)) && match irun 16 (eq_reset 16) h with Some (q, o) => (eq_count q =? 0)%nat && negb (subset (sent (flat h)) (got o) && subset (got o) (sent (flat h))) | None => false end.
Theorem C77_inside_refuted : forall k, (1 <= k <= 4)%nat \/ (7 <= k <= 16)%nat -> exists h before c o d q outs,
  h = before ++ [(c, at_point k o d)] /\ length o = 1%nat /\ Forall (fun x => forall n, (n < 27)%nat -> snd x n = []) before /\
  never_fills 16 (flat h) /\ irun 16 (eq_reset 16) h = Some (q, outs) /\ eq_count q = 0%nat /\ ~ complete h outs.
Proof.
  intros k Hk. assert (is_bad (h_bad k) = true) as B.
  { assert (forallb (fun k => is_bad (h_bad k)) (seq 1 4 ++ seq 7 10) = true) as A by (vm_compute; reflexivity). apply (proj1 (forallb_forall _ _) A). apply in_or_app. rewrite !in_seq. lia. }
  unfold is_bad in B. apply andb_prop in B. destruct B as [F B]. destruct (irun 16 (eq_reset 16) (h_bad k)) as [[q outs]|] eqn:R; [|discriminate].
  apply andb_prop in B. destruct B as [Z B]. exists (h_bad k).
  assert (exists before c o d, h_bad k = before ++ [(c, at_point k o d)] /\ length o = 1%nat /\ Forall (fun x => forall n, (n < 27)%nat -> snd x n = []) before) as (before & c & o & d & E & L & Q).
  { assert (Forall (fun x : ecall * (nat -> list eop) => forall n, (n < 27)%nat -> snd x n = []) [(rep 5, quiet)]) as Q1 by (constructor; [intros n _; reflexivity|constructor]).
    unfold h_bad. destruct (k <=? 4)%nat; [exists []; do 3 eexists; split; [reflexivity|split; [reflexivity|constructor]]|].
    destruct (k <=? 8)%nat; [|destruct (k =? 9)%nat; [|destruct (k <=? 14)%nat]].
    - exists (map (fun i => (rep (N.of_nat i), quiet)) (seq 100 14)). do 3 eexists. split; [reflexivity|split; [reflexivity|]]. apply Forall_map, Forall_forall. intros x _ n _. reflexivity.
    - exists [(rep 5, quiet)]. do 3 eexists. split; [reflexivity|split; [reflexivity|exact Q1]].
    - exists [(rep 5, at_point 27 [] [EGet])]. do 3 eexists. split; [reflexivity|split; [reflexivity|]]. constructor; [|constructor]. intros n Ln. cbn [snd]. unfold at_point. destruct (Nat.eqb_spec n 27); [lia|reflexivity].
    - exists [(rep 5, quiet)]. do 3 eexists. split; [reflexivity|split; [reflexivity|exact Q1]]. }
  exists before, c, o, d, q, outs. split; [exact E|]. split; [exact L|]. split; [exact Q|]. split; [apply fills_ok; apply negb_true_iff in F; exact F|]. split; [exact R|].
  split; [apply Nat.eqb_eq; exact Z|]. intro C. apply negb_true_iff in B. rewrite !incl_subset in B; [discriminate| |]; intros e; apply C.
Qed.
Print Assumptions C77_inside_refuted.

(** C77, the build without a queue: interrupts before or after the six stores leave the call as it is. *)
Theorem C77_slot_partial : forall c irq s, (forall k, (1 <= k <= 5)%nat -> irq k = []) ->
  sexec c irq 0 slot_prog s = sirqs s (irq 0%nat ++ send_of c :: irq 6%nat).
Proof.
  intros c irq s Q.
  assert (forall a b s, sirqs s (a ++ b) = (fst (sirqs (fst (sirqs s a)) b), snd (sirqs s a) ++ snd (sirqs (fst (sirqs s a)) b))) as A.
  { intros a b. induction a as [|o a IH]; intro s0; cbn [app sirqs fst snd]; [destruct (sirqs s0 b); reflexivity|]. destruct (sirq s0 o) as [s1 g1]. rewrite IH. destruct (sirqs s1 a) as [s2 g2]. cbn [fst snd]. rewrite app_assoc. reflexivity. }
  rewrite A. unfold slot_prog. cbn [sexec]. rewrite (Q 1%nat), (Q 2%nat), (Q 3%nat), (Q 4%nat), (Q 5%nat) by lia. cbn [sirqs app]. destruct (sirqs s (irq 0%nat)) as [s1 g1]. cbn [fst snd sirq send_of app].
  assert (saccess c SGroup (saccess c SInfo (saccess c SPrio (saccess c SCode (saccess c SNr (saccess c SCount s1))))) =
          fst (es_send_full s1 (ec_code c) (ec_info c) (ec_prio c) (ec_group c) (ec_sub c) (ec_nr c))) as ->.
  { unfold saccess, es_send_full. destruct (ec_prio c =? LVL_FATAL); reflexivity. }
  destruct (sirqs _ (irq 6%nat)) as [s2 g2]. reflexivity.
Qed.
Print Assumptions C77_slot_partial.
Example C77_slot_case : sexec (rep 6) (at_point 0 [send_of (rep 5); EGet] []) 0 slot_prog (ESlot blank_entry 0) = (ESlot (Entry 6 10 2 1 117) 1, [Entry 5 10 2 1 117])
  /\ entry_of 5 1 10 7 5 2 = Entry 5 10 2 1 117.
Proof. vm_compute. split; reflexivity. Qed.

(** C77, the build without a queue: interrupts that read find an entry only if one was reported since the last reading, and it is complete:
    what is read in such a history was reported, and no more is read than was reported. *)
Theorem C77_slot_reads_partial : forall h : list (ecall * (nat -> list eop)), Forall (fun x => forall k, (1 <= k <= 5)%nat -> snd x k = []) h ->
  let ops := flat_map (fun x => snd x 0%nat ++ send_of (fst x) :: snd x 6%nat) h in
  let r := fold_left (fun a x => let '(s, g) := sexec (fst x) (snd x) 0 slot_prog (fst a) in (s, snd a ++ g)) h (ESlot blank_entry 0, []) in
  incl (snd r) (sent ops) /\ (length (snd r) + s_count (fst r) <= length (sent ops))%nat /\ (s_count (fst r) <> 0%nat -> In (s_entry (fst r)) (sent ops)).
Proof.
  intros h Q.
  assert (forall a b, sent (a ++ b) = sent a ++ sent b) as SA.
  { induction a as [|o a IH]; intro b; [reflexivity|]. cbn [app sent]. destruct o; rewrite IH; try reflexivity. destruct (is_fatal prio); reflexivity. }
  set (ok := fun (s : eslot) (seen : list entry) (g : list entry) => incl g seen /\ (length g + s_count s <= length seen)%nat /\ (s_count s <> 0%nat -> In (s_entry s) seen)).
  assert (forall os s seen g, ok s seen g -> ok (fst (sirqs s os)) (seen ++ sent os) (g ++ snd (sirqs s os))) as STEP.
  { induction os as [|o os IH]; intros s seen g K; cbn [sirqs fst snd sent]; [rewrite !app_nil_r; exact K|].
    assert (ok (fst (sirq s o)) (seen ++ sent [o]) (g ++ snd (sirq s o))) as K1.
    { destruct K as (A & B & C). destruct o as [c i p gr sg m| |]; cbn [sirq sent fst snd]; unfold ok.
      - unfold es_send_full. change (is_fatal p) with (p =? LVL_FATAL). destruct (p =? LVL_FATAL); cbn [fst s_count s_entry].
        + rewrite !app_nil_r. auto.
        + rewrite app_nil_r, app_length. cbn [length]. split; [apply incl_appl, A|]. split; [lia|]. intros _. apply in_or_app. right. left. reflexivity.
      - destruct (Nat.eqb_spec (s_count s) 0) as [Z|Z]; cbn [fst snd es_get_full s_count s_entry]; rewrite !app_nil_r; [auto|]. rewrite app_length. cbn [length].
        split; [|split; [lia|congruence]]. apply incl_app; [exact A|]. intros e [<-|[]]. apply C, Z.
      - rewrite !app_nil_r. auto. }
    specialize (IH _ _ _ K1). destruct (sirq s o) as [s1 g1]. cbn [fst snd] in *. destruct (sirqs s1 os) as [s2 g2]. cbn [fst snd] in *.
    rewrite <- !app_assoc in IH. rewrite <- SA in IH. exact IH. }
  assert (forall s seen g, ok s seen g -> ok (fst (fold_left (fun a x => let '(s, g) := sexec (fst x) (snd x) 0 slot_prog (fst a) in (s, snd a ++ g)) h (s, g)))
     (seen ++ sent (flat_map (fun x => snd x 0%nat ++ send_of (fst x) :: snd x 6%nat) h))
     (snd (fold_left (fun a x => let '(s, g) := sexec (fst x) (snd x) 0 slot_prog (fst a) in (s, snd a ++ g)) h (s, g)))) as RUN.
  { induction Q as [|[c irq] h Hx Q IH]; intros s seen g K; cbn [fold_left flat_map fst snd]; [rewrite app_nil_r; exact K|].
    cbn [snd] in Hx. rewrite (C77_slot_partial c irq s Hx). pose proof (STEP (irq 0%nat ++ send_of c :: irq 6%nat) s seen g K) as K1.
    destruct (sirqs s (irq 0%nat ++ send_of c :: irq 6%nat)) as [s1 g1]. cbn [fst snd] in K1. specialize (IH _ _ _ K1). rewrite SA, app_assoc. exact IH. }
  exact (RUN (ESlot blank_entry 0) [] [] ltac:(unfold ok; cbn [length s_count]; repeat split; [intros e []|lia|congruence])).
Qed.
Print Assumptions C77_slot_reads_partial.
Example C77_slot_reads_case : snd (fold_left (fun a x => let '(s, g) := sexec (fst x) (snd x) 0 slot_prog (fst a) in (s, snd a ++ g))
  [(rep 6, at_point 0 [EGet; send_of (rep 5); EGet; EGet] [EGet])] (ESlot blank_entry 0, [])) = [Entry 5 10 2 1 117].
Proof. vm_compute. reflexivity. Qed.

(** Finding: the count is stored first.  An interrupt that reads errors between the stores takes an entry with fields of an older error, and
    the reported error is gone. *)
Theorem C77_slot_refuted : forall c s k, (1 <= k <= 5)%nat -> is_fatal (ec_prio c) = false -> u8 (ec_sub c + 16 * ec_group c) <> e_group (s_entry s) ->
  exists s' e, sexec c (fun n => if (n =? k)%nat then [EGet] else []) 0 slot_prog s = (s', [e]) /\ s_count s' = 0%nat /\
    e <> entry_of (ec_code c) (ec_info c) (ec_prio c) (ec_group c) (ec_sub c) (ec_nr c).
Proof.
  intros c s k Hk F G. change (ec_prio c =? LVL_FATAL = false) in F.
  assert (k = 1 \/ k = 2 \/ k = 3 \/ k = 4 \/ k = 5)%nat as D by lia.
  destruct D as [->|[->|[->|[->| ->]]]]; cbn [sexec slot_prog Nat.eqb sirqs]; unfold saccess; rewrite F; cbn [sirq s_count Nat.eqb es_get_full fst s_entry app]; do 2 eexists; (split; [reflexivity|]); (split; [reflexivity|]);
    intro X; apply (f_equal e_group) in X; cbn in X; congruence.
Qed.
Print Assumptions C77_slot_refuted.
Example C77_slot_refuted_case : is_fatal (ec_prio (rep 6)) = false /\ u8 (ec_sub (rep 6) + 16 * ec_group (rep 6)) <> e_group (s_entry (ESlot blank_entry 0)).
Proof. vm_compute. split; [reflexivity|discriminate]. Qed.
