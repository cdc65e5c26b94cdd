(** C88: after a reconnect frames are ignored for the configured time, and not longer. *)
From Verif Require Import Words RxPauseModel RxPauseSpec.

Lemma prun_app : forall ms a b s, prun ms s (a ++ b) = prun ms (prun ms s a) b.
Proof. induction a as [|e r IH]; intros b s; [reflexivity|]. cbn. apply IH. Qed.

Lemma off_state : forall ms off es, q_off (prun ms (Pause off 0) es) = false <-> searching off es.
Proof.
  intros ms off es. induction es as [|e r IH] using rev_ind.
  - cbn. split.
    + intros ->. right. split; [reflexivity|intros []].
    + intros [[a [b [H _]]]|[H _]]; [destruct a; discriminate|exact H].
  - rewrite prun_app. set (s := prun ms (Pause off 0) r) in *.
    destruct e as [| |t|t]; cbn.
    + split; [intros _|reflexivity]. left. exists r, []. split; [reflexivity|intros []].
    + split; [discriminate|]. intros [[a [b [H N]]]|[_ N]].
      * exfalso. destruct b as [|x b] using rev_ind.
        -- apply app_inj_tail in H. destruct H as [_ H]. discriminate.
        -- rewrite app_comm_cons, app_assoc in H. apply app_inj_tail in H. destruct H as [_ <-].
           apply N, in_or_app. right. left. reflexivity.
      * exfalso. apply N, in_or_app. right. left. reflexivity.
    + rewrite IH. unfold searching. split.
      * intros [[a [b [-> N]]]|[O N]].
        -- left. exists a, (b ++ [PStamp t]). split; [rewrite <- app_assoc; reflexivity|].
           intros I. apply in_app_or in I. destruct I as [I|[I|[]]]; [exact (N I)|discriminate].
        -- right. split; [exact O|]. intros I. apply in_app_or in I. destruct I as [I|[I|[]]]; [exact (N I)|discriminate].
      * intros [[a [b [H N]]]|[O N]].
        -- left. destruct b as [|x b] using rev_ind.
           ++ apply app_inj_tail in H. destruct H as [_ H]. discriminate.
           ++ rewrite app_comm_cons, app_assoc in H. apply app_inj_tail in H. destruct H as [-> <-].
              exists a, b. split; [reflexivity|]. intros I. apply N, in_or_app. left. exact I.
        -- right. split; [exact O|]. intros I. apply N, in_or_app. left. exact I.
    + rewrite IH. unfold searching. split.
      * intros [[a [b [-> N]]]|[O N]].
        -- left. exists a, (b ++ [PFrame t]). split; [rewrite <- app_assoc; reflexivity|].
           intros I. apply in_app_or in I. destruct I as [I|[I|[]]]; [exact (N I)|discriminate].
        -- right. split; [exact O|]. intros I. apply in_app_or in I. destruct I as [I|[I|[]]]; [exact (N I)|discriminate].
      * intros [[a [b [H N]]]|[O N]].
        -- left. destruct b as [|x b] using rev_ind.
           ++ apply app_inj_tail in H. destruct H as [_ H]. discriminate.
           ++ rewrite app_comm_cons, app_assoc in H. apply app_inj_tail in H. destruct H as [-> <-].
              exists a, b. split; [reflexivity|]. intros I. apply N, in_or_app. left. exact I.
        -- right. split; [exact O|]. intros I. apply N, in_or_app. left. exact I.
Qed.

Lemma back_keep : forall ms es s, never_ended es -> q_back (prun ms s es) = q_back s.
Proof.
  induction es as [|e r IH]; intros s N; [reflexivity|]. cbn [prun]. rewrite IH.
  - destruct e; try reflexivity. exfalso. apply (N t). left. reflexivity.
  - intros t I. apply (N t). right. exact I.
Qed.

Lemma back_end : forall ms off es T, last_end es T -> q_back (prun ms (Pause off 0) es) = u32 T.
Proof.
  intros ms off es T [a [b [-> N]]]. rewrite prun_app. cbn [prun pstep fst]. rewrite back_keep; [reflexivity|exact N].
Qed.

Lemma end_cases : forall es, never_ended es \/ exists T, last_end es T.
Proof.
  induction es as [|e r [IH|[T [a [b [-> N]]]]]] using rev_ind.
  - left. intros t [].
  - destruct e as [| |t|t].
    1,2,4: left; intros u I; apply in_app_or in I; destruct I as [I|[I|[]]]; [exact (IH u I)|discriminate].
    right. exists t, r, []. split; [reflexivity|intros u []].
  - right. destruct e as [| |t|t].
    1,2,4: exists T, a; eexists (b ++ [_]); split; [rewrite <- app_assoc; reflexivity|];
           intros u I; apply in_app_or in I; destruct I as [I|[I|[]]]; [exact (N u I)|discriminate].
    exists t, (a ++ PStamp T :: b), []. split; [reflexivity|intros u []].
Qed.

Lemma end_unique : forall es T T', last_end es T -> last_end es T' -> T = T'.
Proof.
  intros es T T' [a [b [-> N]]] [a' [b' [H N']]].
  revert a' b' H N'. induction a as [|x a IH]; intros a' b' H N'.
  - destruct a' as [|y a']; cbn in H; injection H as H1 H2; [exact H1|].
    exfalso. apply (N T'). rewrite H2. apply in_or_app. right. left. reflexivity.
  - destruct a' as [|y a']; cbn in H; injection H as H1 H2.
    + exfalso. apply (N' T). rewrite <- H2. apply in_or_app. right. left. reflexivity.
    + exact (IH a' b' H2 N').
Qed.

Lemma looked_some : forall ms off es t,
  looked_at ms off es t = Some (looks ms (prun ms (Pause off 0) es) t).
Proof. reflexivity. Qed.

Definition CLOCK := 4294967296.

(** While the clock of the port has not run over, and once a reconnect has taken place, the pause is exactly the configured
    time after the end of the last reconnect. *)
Theorem C88_pause_partial : forall ms off es t T taken,
  last_end es T -> T <= t -> t < CLOCK -> T + ms < CLOCK ->
  looked_at ms off es t = Some taken -> pause_right ms off es t taken.
Proof.
  intros ms off es t T taken L Tt tc Tc H. rewrite looked_some in H. injection H as <-.
  unfold pause_right, looks. pose proof (off_state ms off es) as O. rewrite (back_end _ off _ _ L).
  destruct (q_off (prun ms (Pause off 0) es)).
  - assert (E : (u32 t <? u32 (u32 T + ms)) = (t <? T + ms)).
    { unfold u32, CLOCK in *. rewrite (N.mod_small T) by lia. rewrite !N.mod_small by lia. reflexivity. }
    rewrite E. split.
    + intros B. split.
      * intros S. apply O in S. discriminate.
      * intros T' L'. rewrite <- (end_unique _ _ _ L L'). lia.
    + intros [_ B]. specialize (B T L). lia.
  - split; [discriminate|]. intros [B _]. exfalso. apply B, O. reflexivity.
Qed.
Print Assumptions C88_pause_partial.

Definition once (T : N) : list pev := [PBegin; PFrame (T - 1); POff; PStamp T; PFrame (T + 1)].
Lemma once_end : forall T, last_end (once T) T.
Proof. intros T. exists [PBegin; PFrame (T - 1); POff], [PFrame (T + 1)]. split; [reflexivity|]. intros t [H|[]]. discriminate. Qed.
Lemma once_off : forall T off, ~ searching off (once T).
Proof.
  intros T off S. apply (off_state 0) in S. cbn in S. discriminate.
Qed.

Example C88_case :
  looked_at 50 true (once 1000) 1049 = Some false /\ looked_at 50 true (once 1000) 1050 = Some true /\
  looked_at 50 true [PBegin] 1050 = Some false /\
  pause_right 50 true (once 1000) 1050 true.
Proof.
  split; [reflexivity|]. split; [reflexivity|]. split; [reflexivity|].
  apply (C88_pause_partial 50 true (once 1000) 1050 1000 true (once_end 1000)); [lia|unfold CLOCK; lia|unfold CLOCK; lia|reflexivity].
Qed.
Print Assumptions C88_case.

(** Refuted when the clock runs over: whenever the last reconnect ended at [T], every frame of the first [T] + [ms]
    milliseconds after the clock has run over is ignored, on both controllers, long after the pause. *)
Theorem C88_clock_refuted : forall ms T, T + ms < CLOCK ->
  exists es, (forall off, ~ searching off es) /\ last_end es T /\
    forall off t, CLOCK <= t -> t < CLOCK + T + ms -> looked_at ms off es t = Some false.
Proof.
  intros ms T Tc. exists (once T). split; [intros off; apply once_off|]. split; [apply once_end|].
  intros off t t1 t2. rewrite looked_some. f_equal. unfold looks. rewrite (back_end _ off _ _ (once_end T)).
  replace (u32 t <? u32 (u32 T + ms)) with true; [destruct (q_off _); reflexivity|].
  symmetry. unfold u32, CLOCK in *. lia.
Qed.
Print Assumptions C88_clock_refuted.

(** Refuted near the end of the clock: there the pause is skipped altogether. *)
Theorem C88_skipped_refuted : forall ms T, T < CLOCK -> CLOCK <= T + ms -> ms < CLOCK ->
  exists es, (forall off, ~ searching off es) /\ last_end es T /\
    forall off t, T <= t -> t < CLOCK -> T + ms < CLOCK + t -> looked_at ms off es t = Some true.
Proof.
  intros ms T T1 T2 M. exists (once T). split; [intros off; apply once_off|]. split; [apply once_end|].
  intros off t t1 t2 t3. rewrite looked_some. f_equal. unfold looks. rewrite (back_end _ off _ _ (once_end T)).
  replace (u32 t <? u32 (u32 T + ms)) with false.
  - assert (Q : q_off (prun ms (Pause off 0) (once T)) = true) by reflexivity. rewrite Q. reflexivity.
  - symmetry. unfold u32, CLOCK in *. lia.
Qed.
Print Assumptions C88_skipped_refuted.

(** Refuted at power-on: without any reconnect the node ignores the bus for the first [ms] milliseconds. *)
Theorem C88_start_refuted : forall ms es t, ms < CLOCK -> never_ended es -> ~ searching true es -> t < CLOCK ->
  looked_at ms true es t = Some (ms <=? t).
Proof.
  intros ms es t M N S T. rewrite looked_some. f_equal. unfold looks. rewrite back_keep by exact N. cbn [q_back].
  pose proof (off_state ms true es) as O. destruct (q_off (prun ms (Pause true 0) es)).
  - unfold u32, CLOCK in *. rewrite !N.mod_small by lia. cbn. lia.
  - exfalso. apply S, O. reflexivity.
Qed.
Print Assumptions C88_start_refuted.

(** Refuted at the end of the search: a frame that arrives after the search is switched off (line 892) and before the time is
    noted (line 1028) is handled, whatever the pause. *)
Theorem C88_gap_refuted : forall ms T t, T + ms <= t -> t < CLOCK ->
  looked_at ms true (once T ++ [PBegin; POff]) t = Some true.
Proof.
  intros ms T t H1 H2. rewrite looked_some. f_equal. unfold looks. rewrite prun_app. cbn [prun pstep fst once q_off q_back].
  replace (u32 t <? u32 (u32 T + ms)) with false; [reflexivity|].
  symmetry. unfold u32, CLOCK in *. rewrite (N.mod_small T) by lia. rewrite !N.mod_small by lia. lia.
Qed.
Print Assumptions C88_gap_refuted.

Example C88_refuted_ex :
  looked_at 50 true (once 2000000000) (CLOCK + 1000000000) = Some false /\
  looked_at 50 true (once 4294967290) 4294967291 = Some true /\
  looked_at 50 true [] 49 = Some false /\
  looked_at 50 true (once 1000 ++ [PBegin; POff]) 2000 = Some true.
Proof. repeat split. Qed.
