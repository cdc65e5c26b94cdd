(** Proofs about the capture of transmit data. *)
From Verif Require Import Words WordsFacts SnapModel.

Lemma snap_run_app es1 : forall s es2, snap_run s (es1 ++ es2) = match snap_run s es1 with Some s1 => snap_run s1 es2 | None => None end.
Proof. induction es1 as [|e r IH]; intros s es2; cbn; auto. destruct (snap_step s e); auto. Qed.

Definition sinv (mem tmp : list byte) (es : list sev) (s : snap) : Prop :=
  length (s_mem s) = length mem /\ length (s_tmp s) = 8%nat /\
  match s_pc s with
  | SLock => s_irq s = true
  | SWord k => s_irq s = false /\ (k <= 3)%nat /\ firstn (2 * k) (s_tmp s) = firstn (2 * k) (s_mem s)
  | SUnlock => s_irq s = false /\ s_tmp s = firstn 8 (s_mem s)
  | SDone => s_irq s = true /\ exists es1 es2 s1, es = es1 ++ es2 /\ snap_run (snap_call mem tmp) es1 = Some s1 /\ s_tmp s = firstn 8 (s_mem s1)
  end.
Lemma firstn_set_nth {A} : forall (l : list A) k x, (k < length l)%nat -> firstn (S k) (set_nth l k x) = firstn k l ++ [x].
Proof. induction l; intros [|k] x H; cbn [length] in H; try lia; [reflexivity|]. cbn [set_nth firstn app]. f_equal. apply IHl. lia. Qed.
Lemma firstn_snoc {A} : forall (l : list A) k x, nth_error l k = Some x -> firstn (S k) l = firstn k l ++ [x].
Proof. induction l; intros [|k] x H; cbn in H; try discriminate; [injection H as ->; reflexivity|]. cbn [firstn app]. f_equal. apply IHl. exact H. Qed.
Lemma two_words (t m : list byte) k lo hi : firstn (2 * k) t = firstn (2 * k) m -> (2 * k + 2 <= length t)%nat ->
  nth_error m (2 * k) = Some lo -> nth_error m (2 * k + 1) = Some hi ->
  firstn (2 * k + 2) (set_nth (set_nth t (2 * k) lo) (2 * k + 1) hi) = firstn (2 * k + 2) m.
Proof.
  intros E L A B. replace (2 * k + 2)%nat with (S (2 * k + 1)) by lia.
  rewrite firstn_set_nth by (rewrite set_nth_length; lia). rewrite (firstn_snoc m _ _ B). f_equal.
  replace (2 * k + 1)%nat with (S (2 * k)) by lia. rewrite firstn_set_nth by lia. rewrite (firstn_snoc m _ _ A). f_equal. exact E.
Qed.
Lemma sinv_step mem tmp es s e : (8 <= length mem)%nat -> snap_run (snap_call mem tmp) es = Some s -> sinv mem tmp es s ->
  exists s', snap_step s e = Some s' /\ sinv mem tmp (es ++ [e]) s'.
Proof.
  intros HM HR (A & B & C). destruct s as [m irq pc t]. cbn [s_mem s_irq s_pc s_tmp] in *. destruct e as [|a x]; cbn [snap_step].
  - unfold snap_access. cbn [s_mem s_irq s_pc s_tmp]. destruct pc as [|k| |].
    + eexists. split; [reflexivity|]. repeat split; auto; cbn; lia.
    + destruct C as (-> & K & F).
      destruct (nth_error_lt_some _ m (2 * k)) as [lo E1]; [lia|]. destruct (nth_error_lt_some _ m (2 * k + 1)) as [hi E2]; [lia|]. rewrite E1, E2.
      pose proof (two_words t m k lo hi F ltac:(lia) E1 E2) as T.
      eexists. split; [reflexivity|]. split; [exact A|]. cbn [s_tmp s_pc s_irq s_mem]. split; [rewrite !set_nth_length; exact B|].
      destruct (k <? 3)%nat eqn:EK.
      * apply Nat.ltb_lt in EK. split; [reflexivity|]. split; [lia|]. replace (2 * (k + 1))%nat with (2 * k + 2)%nat by lia. exact T.
      * apply Nat.ltb_ge in EK. replace k with 3%nat in * by lia. split; [reflexivity|]. change (2 * 3 + 2)%nat with 8%nat in T. rewrite <- T.
        symmetry. apply firstn_all2. rewrite !set_nth_length. lia.
    + destruct C as (-> & F). eexists. split; [reflexivity|]. split; [exact A|]. split; [exact B|]. split; [reflexivity|].
      exists es, [VCopy], (Snap m false SUnlock t). cbn [s_tmp s_mem]. auto.
    + destruct C as (-> & es1 & es2 & s1 & -> & R & F). eexists. split; [reflexivity|]. split; [exact A|]. split; [exact B|]. split; [reflexivity|].
      exists es1, (es2 ++ [VCopy]), s1. rewrite app_assoc. auto.
  - destruct irq eqn:EI.
    + eexists. split; [reflexivity|]. cbn [s_mem s_irq s_pc s_tmp]. split; [cbn; rewrite set_nth_length; exact A|]. split; [exact B|].
      destruct pc as [|k| |]; cbn [s_pc s_irq s_tmp]; auto; try (destruct C; discriminate).
      destruct C as (_ & es1 & es2 & s1 & -> & R & F). split; [reflexivity|]. exists es1, (es2 ++ [VApp a x]), s1. rewrite app_assoc. auto.
    + eexists. split; [reflexivity|]. split; [exact A|]. split; [exact B|]. destruct pc as [|k| |]; cbn [s_pc s_irq s_tmp s_mem] in *; auto.
      destruct C; discriminate.
Qed.
Lemma sinv_run mem tmp : (8 <= length mem)%nat -> length tmp = 8%nat -> forall es, exists s, snap_run (snap_call mem tmp) es = Some s /\ sinv mem tmp es s.
Proof.
  intros HM HT. induction es as [|e es IH] using rev_ind.
  - exists (snap_call mem tmp). repeat split; auto.
  - destruct IH as (s & R & I). destruct (sinv_step mem tmp es s e HM R I) as (s' & E & I').
    exists s'. split; [|exact I']. rewrite snap_run_app, R. cbn. rewrite E. reflexivity.
Qed.
Lemma untorn mem tmp es s : (8 <= length mem)%nat -> length tmp = 8%nat -> snap_run (snap_call mem tmp) es = Some s -> s_pc s = SDone ->
  s_irq s = true /\ exists es1 es2 s1, es = es1 ++ es2 /\ snap_run (snap_call mem tmp) es1 = Some s1 /\ s_tmp s = firstn 8 (s_mem s1).
Proof.
  intros HM HT R D. destruct (sinv_run mem tmp HM HT es) as (s' & R' & (_ & _ & C)). rewrite R in R'. injection R' as <-. rewrite D in C. exact C.
Qed.
(** the call ends after six accesses, whatever happens in between *)
Fixpoint copies (es : list sev) : nat := match es with VCopy :: r => S (copies r) | _ :: r => copies r | [] => 0%nat end.
Definition left (p : spc) : nat := match p with SLock => 6 | SWord k => 5 - k | SUnlock => 1 | SDone => 0 end.
Lemma ends : forall es s s', snap_run s es = Some s' -> (match s_pc s with SWord k => (k <= 3)%nat | _ => True end) -> (left (s_pc s) <= copies es)%nat -> s_pc s' = SDone.
Proof.
  induction es as [|e es IH]; intros s s' H K Lf; cbn in H.
  - injection H as <-. cbn [copies] in Lf. destruct (s_pc s) as [|k| |]; cbn [left] in Lf; auto; lia.
  - destruct (snap_step s e) as [s1|] eqn:E; [|discriminate]. apply (IH s1 s' H); destruct e as [|a x]; cbn [snap_step copies] in *.
    + unfold snap_access in E. destruct (s_pc s) as [|k| |] eqn:EP.
      * injection E as <-. cbn. lia.
      * destruct (nth_error _ _); [|discriminate]. destruct (nth_error _ _); [|discriminate]. injection E as <-. cbn [s_pc].
        destruct (k <? 3)%nat eqn:EK; auto. apply Nat.ltb_lt in EK. lia.
      * injection E as <-. exact I.
      * injection E as <-. rewrite EP. exact I.
    + destruct (s_irq s); injection E as <-; exact K.
    + unfold snap_access in E. destruct (s_pc s) as [|k| |] eqn:EP; cbn [left] in Lf.
      * injection E as <-. cbn. lia.
      * destruct (nth_error _ _); [|discriminate]. destruct (nth_error _ _); [|discriminate]. injection E as <-. cbn [s_pc].
        destruct (k <? 3)%nat eqn:EK; cbn [left]; [|]; (apply Nat.ltb_lt in EK || apply Nat.ltb_ge in EK); lia.
      * injection E as <-. cbn. lia.
      * injection E as <-. rewrite EP. cbn. lia.
    + destruct (s_irq s); injection E as <-; exact Lf.
Qed.
