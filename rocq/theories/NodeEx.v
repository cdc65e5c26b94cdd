(** A concrete node for the examples: the configuration of verify/ (8 modules, 32 message objects, maximum
    period 50, single-slot error memory), byte-copy conversions, three module descriptors. *)
From Verif Require Import Words ErrModel NodeModel NodeSpec.

Definition E0 : env := Env 8 32 50 true true true true 1995998 1 2 3 4 12345678 77 [170;170;170;170;170;170;170;170].
Lemma E0_ok : env_ok E0.
Proof. unfold env_ok. cbn. lia. Qed.

(** verify/io_app_conv/io_app_convc.c: byte copies *)
Definition rxc : rxconv := fun can app dlc => (firstn (N.to_nat dlc) can ++ skipn (N.to_nat dlc) app, 0).
Definition txc : txconv := fun can app dlc => (firstn (N.to_nat dlc) app ++ skipn (N.to_nat dlc) can, 0).
Definition rx8 := RxO 0 8 (Some rxc) 0 (Some rxc) 0.
Definition tx8 := TxO 0 8 (Some txc) 0 (Some txc).
(** descriptor with type mod<k>, [r] receive and [t] transmit objects *)
Definition desc (k : N) (r t : nat) : modl :=
  Modl [109; 111; 100; k; 0] 0 r 0 t 0 (repeat rx8 4) (repeat tx8 4).
Definition mem0 : list (list byte) := map (fun i => repeat (N.of_nat i) 8) (seq 0 16).
Definition slot_empty : errstore := EsSlot es_reset.
Definition static0 : node := static_node E0 mem0 slot_empty [].
Definition boot0 : node := match can_init E0 250 static0 with Ret (_, s) => s | _ => static0 end.
Lemma boot0_ok : booted E0 boot0.
Proof. exists mem0, slot_empty, [], 250. vm_compute. reflexivity. Qed.
Definition after (ops : list op) : node := match run E0 ops boot0 with Ret (_, s) => s | _ => boot0 end.
Definition fine (ops : list op) : bool := match run E0 ops boot0 with Ret _ => true | _ => false end.
Lemma reached_after ops : fine ops = true -> reached E0 ops (after ops).
Proof.
  intro H. exists boot0. split; [exact boot0_ok|]. unfold fine, after in *. destruct (run E0 ops boot0) as [[[] s]| |]; try discriminate. reflexivity.
Qed.
Lemma fine_split pre ops : fine (pre ++ ops) = true -> fine pre = true /\ run E0 ops (after pre) = Ret (tt, after (pre ++ ops)).
Proof.
  unfold fine, after. generalize boot0. induction pre as [|o pre IH]; intros s H.
  - cbn [app run] in *. split; [reflexivity|]. cbn. destruct (run E0 ops s) as [[[] s']| |]; try discriminate. reflexivity.
  - cbn [app run] in *. unfold bind in *. destruct (step E0 o s) as [[u s1]| |]; try discriminate.
    specialize (IH s1 H). destruct (run E0 pre s1) as [[[] s2]| |]; cbn in IH |- *; try (destruct IH; discriminate).
    destruct (run E0 (pre ++ ops) s1) as [[[] s3]| |]; try discriminate. exact IH.
Qed.
Lemma after_run pre ops : fine (pre ++ ops) = true -> run E0 ops (after pre) = Ret (tt, after (pre ++ ops)).
Proof. intro H. apply fine_split, H. Qed.
Lemma after_step pre o : fine (pre ++ [o]) = true -> step E0 o (after pre) = Ret (tt, after (pre ++ [o])).
Proof.
  intro H. apply after_run in H. cbn [run] in H. unfold bind in H. destruct (step E0 o (after pre)) as [[[] s]| |]; try discriminate.
  cbn in H. exact H.
Qed.
(** events added by [ops] after [pre] *)
Definition delta (pre ops : list op) : list event := skipn (length (n_log (after pre))) (n_log (after (pre ++ ops))).
(** decides [plain] *)
Definition plainb (o : op) : bool :=
  match o with
  | OpFrame mo _ _ data _ =>
      negb (sys_mo E0 mo) || negb (byte_at data 0 =? 32) && negb (byte_at data 0 =? 49) && (negb ((byte_at data 0 =? 33) || (byte_at data 0 =? 34)) || negb (byte_at data 1 =? 0))
  | OpSetNr _ _ _ | OpTakePart _ _ => false
  | OpSilent type _ st => negb (hd 0 type =? 0) && ((st =? SILENT) || (st =? AWAKE))
  | _ => true
  end.
Lemma plainb_ok ops : forallb plainb ops = true -> Forall (plain E0) ops.
Proof.
  rewrite forallb_forall. intro H. apply Forall_forall. intros o Ho. specialize (H o Ho). destruct o; cbn [plain plainb] in *; auto; try discriminate.
  - intro Hs. rewrite Hs in H. cbn [negb orb] in H. apply andb_prop in H. destruct H as [H H3]. apply andb_prop in H. destruct H as [H1 H2].
    apply negb_true_iff, N.eqb_neq in H1, H2. split; [exact H1|]. split; [exact H2|]. intro Q. apply orb_prop in H3. destruct H3 as [H3|H3].
    + apply negb_true_iff, orb_false_elim in H3. destruct H3 as [A1 A2]. apply N.eqb_neq in A1, A2. tauto.
    + apply negb_true_iff, N.eqb_neq in H3. exact H3.
  - apply andb_prop in H. destruct H as [H1 H2]. apply negb_true_iff, N.eqb_neq in H1. apply orb_prop in H2. split; [exact H1|].
    destruct H2 as [H2|H2]; apply N.eqb_eq in H2; auto.
Qed.
(** closes the conjuncts of an example: reachability, steps, runs, computations *)
Ltac ex := repeat match goal with |- _ /\ _ => split end;
  try match goal with
  | |- reached _ _ _ => simple apply reached_after; vm_compute; reflexivity
  | |- run _ _ _ = Ret (_, after _) => simple apply after_run; vm_compute; reflexivity
  | |- step _ _ _ = Ret (_, after _) => simple apply after_step; vm_compute; reflexivity
  | |- added _ _ _ => unfold added; vm_compute; reflexivity
  | |- no_requests _ => vm_compute; reflexivity
  | |- Forall (plain E0) _ => simple apply plainb_ok; vm_compute; reflexivity
  | |- _ = _ => vm_compute; reflexivity
  end.

(** identifiers of frames to module number [nr] *)
Definition data_id (nr : N) (obj : N) : N := 512 + 4 * (nr - 1) + obj.
Definition sys_id (nr : N) : N := 2 + 4 * (nr - 1).
(** modules mod1 (number 10: 1 receive, 2 transmit objects) and mod2 (number 20: 2 receive, 1 transmit) *)
Definition add2 : list op :=
  [OpAdd (desc 49 1 2) 10 [0;0;0;0]%nat [4;5;0;0]%nat; OpAdd (desc 50 2 1) 20 [1;2;0;0]%nat [6;0;0;0]%nat].
(** message objects of their receive objects *)
Definition mo_1_0 : nat := r_mo (rxat (modat (after add2) 0) 0).
Definition mo_2_0 : nat := r_mo (rxat (modat (after add2) 1) 0).
Definition mo_2_1 : nat := r_mo (rxat (modat (after add2) 1) 1).
Definition rx_frame (mo : nat) (nr obj : N) (data : list byte) : op := OpFrame mo (data_id nr obj) 8 data 0.
Definition sysmsg (nr : N) (data : list byte) : op := OpFrame MO_SYS1 (sys_id nr) 8 data 0.

