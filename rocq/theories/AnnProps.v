(** C105: every pending error is announced. *)
From Verif Require Import Words WordsFacts ErrModel NodeModel NodeLib NodeInv NodeSpec NodeEx AnnSpec Ann.

(** With the error queue an error that has [k] others before it is announced at the latest by the [k]+1-st process request,
    whatever else the node does meanwhile. *)
Theorem C105_announced_partial : forall E size pre s ops s' k e,
  env_ok E -> (2 <= size)%nat -> Forall (plain E) (pre ++ ops) -> reached E pre s -> queue_of size (n_err s) -> run E ops s = Ret (tt, s') ->
  nth_error (pending_errors (n_err s)) k = Some e -> (k < requests ops)%nat ->
  announced_within E k ops s e.
Proof. intros E size pre s ops s' k e HE H2 F R Q H Nk Lk. exact (announced_run E size H2 HE ops pre s s' k e F R Q H Nk Lk). Qed.
Print Assumptions C105_announced_partial.

(** The queue stays the result of calls in every history: the hypothesis on the error memory holds in every node that was
    started with an empty queue. *)
Theorem C105_memory_partial : forall E size mem orc rate e s0 ops s,
  (2 <= size)%nat -> can_init E rate (static_node E mem (EsQueue size (eq_reset size)) orc) = Ret (e, s0) -> run E ops s0 = Ret (tt, s) ->
  queue_of size (n_err s).
Proof.
  intros E size mem orc rate e s0 ops s H2 B R. apply (GR_run E size H2 _ _ _ R). apply (GR_init E size _ _ _ _ B).
  exists [], (eq_reset size), []. split; reflexivity.
Qed.
Print Assumptions C105_memory_partial.

(** No error is lost or overtaken on the way: an operation takes the oldest errors out and announces them, new ones come in
    behind the others; only process requests and status requests take errors out, a process request at most one. *)
Theorem C105_kept_partial : forall E size pre s o s',
  env_ok E -> (2 <= size)%nat -> Forall (plain E) pre -> reached E pre s -> queue_of size (n_err s) -> step E o s = Ret (tt, s') ->
  exists taken rest news, pending_errors (n_err s) = taken ++ rest /\ pending_errors (n_err s') = rest ++ news /\
    (forall e, In e taken -> announces s s' e) /\ (is_request o = true -> (length taken <= 1)%nat) /\
    (is_request o = false -> is_status E o = false -> taken = []).
Proof.
  intros E size pre s o s' HE H2 F R Q H. destruct (took_step E size H2 HE pre o s s' F R Q H) as (k & news & P & A & _ & K1 & K0).
  exists (firstn k (pending_errors (n_err s))), (skipn k (pending_errors (n_err s))), news. split; [symmetry; apply firstn_skipn|]. split; [exact P|]. split; [exact A|].
  split; [intro Z; rewrite firstn_length; specialize (K1 Z); lia|]. intros Z1 Z2. rewrite (K0 Z1 Z2). reflexivity.
Qed.
Print Assumptions C105_kept_partial.

(** *** a node with a queue of eight places *)
Definition qboot : node := match can_init E0 250 (static_node E0 mem0 (EsQueue 8 (eq_reset 8)) []) with Ret (_, s) => s | _ => static0 end.
Definition qafter (ops : list op) : node := match run E0 ops qboot with Ret (_, s) => s | _ => qboot end.
Definition qfine (ops : list op) : bool := match run E0 ops qboot with Ret _ => true | _ => false end.
Lemma qboot_ok : can_init E0 250 (static_node E0 mem0 (EsQueue 8 (eq_reset 8)) []) = Ret (ERR_OK, qboot).
Proof. vm_compute. reflexivity. Qed.
Lemma qrun ops : qfine ops = true -> run E0 ops qboot = Ret (tt, qafter ops).
Proof. unfold qfine, qafter. destruct (run E0 ops qboot) as [[[] s]| |]; try discriminate. reflexivity. Qed.
Lemma qreached ops : qfine ops = true -> reached E0 ops (qafter ops) /\ queue_of 8 (n_err (qafter ops)).
Proof.
  intro H. apply qrun in H. split.
  - exists qboot. split; [|exact H]. exists mem0, (EsQueue 8 (eq_reset 8)), [], 250. exact qboot_ok.
  - refine (C105_memory_partial E0 8 mem0 [] 250 _ _ ops _ _ qboot_ok H). lia.
Qed.
Lemma qsplit pre ops : qfine (pre ++ ops) = true -> qfine pre = true -> run E0 ops (qafter pre) = Ret (tt, qafter (pre ++ ops)).
Proof.
  intros H Hp. apply qrun in H, Hp. assert (forall r, run E0 (pre ++ ops) qboot = Ret r -> run E0 ops (qafter pre) = Ret r) as X; [|apply X, H].
  intros r. generalize dependent (qafter pre). generalize qboot. clear H. induction pre as [|o pre IH]; intros s s' Hp H; cbn [app run] in *.
  - injection Hp as <-. exact H.
  - unfold bind in *. destruct (step E0 o s) as [[u s1]| |]; try discriminate. eapply IH; eauto.
Qed.
(** two pending errors, then a telegram, a new error and two process requests: both errors are announced, in their order *)
Definition errs : list op := add2 ++ [OpError 5 1 10; OpError 6 1 20].
Definition later : list op := [OpError 7 1 10; request 0 5; rx_frame mo_2_0 20 0 (repeat 7 8); request 0 9].
Example C105_case :
  reached E0 errs (qafter errs) /\ queue_of 8 (n_err (qafter errs)) /\ Forall (plain E0) (errs ++ later) /\
  run E0 later (qafter errs) = Ret (tt, qafter (errs ++ later)) /\ requests later = 2%nat /\
  length (pending_errors (n_err (qafter errs))) = 2%nat /\ length (pending_errors (n_err (qafter (errs ++ later)))) = 1%nat /\
  map (fun e => length (error_tx (qafter errs) e)) (pending_errors (n_err (qafter errs))) = [1; 1]%nat.
Proof.
  pose proof (qreached errs ltac:(vm_compute; reflexivity)) as [R Q]. split; [exact R|]. split; [exact Q|]. split; [apply plainb_ok; vm_compute; reflexivity|].
  split; [apply qsplit; vm_compute; reflexivity|]. split; [reflexivity|]. split; [vm_compute; reflexivity|]. split; vm_compute; reflexivity.
Qed.
(** the queue of C105_memory after a history *)
Example C105_memory_case : can_init E0 250 (static_node E0 mem0 (EsQueue 8 (eq_reset 8)) []) = Ret (ERR_OK, qboot) /\
  run E0 (errs ++ later) qboot = Ret (tt, qafter (errs ++ later)) /\ queue_of 8 (n_err (qafter (errs ++ later))).
Proof.
  split; [exact qboot_ok|]. split; [apply qrun; vm_compute; reflexivity|]. apply qreached. vm_compute. reflexivity.
Qed.

(** Not so without the queue: the error memory has one place, and an error reported before the next process request replaces
    the pending one, which is never announced although its module is awake. *)
Definition one_err : list op := add2 ++ [OpError 5 1 10].
Definition over : list op := [OpError 6 1 20; request 0 5; request 0 9].
Definition same_data (f g : N * N * list byte) : bool := if list_eq_dec N.eq_dec (snd f) (snd g) then true else false.
Lemma not_in_data g l : existsb (same_data g) l = false -> ~ In g l.
Proof.
  intros X I. assert (existsb (same_data g) l = true) as T; [|congruence]. apply existsb_exists. exists g. split; [exact I|]. unfold same_data. destruct (list_eq_dec _ _ _); auto.
Qed.
Lemma not_sent pre o t t' e f : t = after pre -> t' = after (pre ++ [o]) -> n_log (after (pre ++ [o])) = n_log (after pre) ++ delta pre [o] -> error_tx (after pre) e = [f] ->
  existsb (same_data f) (sent (delta pre [o])) = false -> ~ announces t t' e.
Proof.
  intros -> -> L If Nf (new & L' & I). rewrite L in L'. apply app_inv_head in L'. rewrite <- L' in I. rewrite If in I. specialize (I f (or_introl eq_refl)).
  assert (existsb (same_data f) (sent (delta pre [o])) = true) as T; [|congruence]. apply existsb_exists. exists f. split; [exact I|]. unfold same_data. destruct (list_eq_dec _ _ _); auto.
Qed.
Theorem C105_slot_refuted : exists s s' e, reached E0 one_err s /\ Forall (plain E0) (one_err ++ over) /\ pending_errors (n_err s) = [e] /\ error_tx s e <> [] /\
  run E0 over s = Ret (tt, s') /\ requests over = 2%nat /\ pending_errors (n_err s') = [] /\ ~ announced_within E0 2 over s e.
Proof.
  exists (after one_err), (after (one_err ++ over)). eexists. split; [apply reached_after; vm_compute; reflexivity|]. split; [apply plainb_ok; vm_compute; reflexivity|].
  split; [vm_compute; reflexivity|]. split; [vm_compute; discriminate|]. split; [apply after_run; vm_compute; reflexivity|]. split; [reflexivity|]. split; [vm_compute; reflexivity|].
  intros (a & o & c & t & t' & X & _ & Ra & So & An).
  assert (forall a o t t', run E0 a (after one_err) = Ret (tt, t) -> step E0 o t = Ret (tt, t') -> fine ((one_err ++ a) ++ [o]) = true ->
    t = after (one_err ++ a) /\ t' = after ((one_err ++ a) ++ [o])) as Det.
  { clear. intros a o t t' Ra So F. pose proof (proj1 (fine_split _ _ F)) as Fa. pose proof (after_run _ _ Fa) as Ra'. pose proof (after_step _ _ F) as So'.
    assert (t = after (one_err ++ a)) as Ht by congruence. split; [exact Ht|]. rewrite <- Ht in So'. congruence. }
  destruct a as [|o1 [|o2 [|o3 a]]]; cbn [app over] in X; injection X; clear X.
  - intros _ <-. destruct (Det _ _ _ _ Ra So ltac:(vm_compute; reflexivity)) as [Ht Ht']. revert An.
    eapply (not_sent (one_err ++ []) _ t t'); [exact Ht|exact Ht'|vm_compute; reflexivity|vm_compute; reflexivity|vm_compute; reflexivity].
  - intros _ <- <-. destruct (Det _ _ _ _ Ra So ltac:(vm_compute; reflexivity)) as [Ht Ht']. revert An.
    eapply (not_sent (one_err ++ [_]) _ t t'); [exact Ht|exact Ht'|vm_compute; reflexivity|vm_compute; reflexivity|vm_compute; reflexivity].
  - intros _ <- <- <-. destruct (Det _ _ _ _ Ra So ltac:(vm_compute; reflexivity)) as [Ht Ht']. revert An.
    eapply (not_sent (one_err ++ [_; _]) _ t t'); [exact Ht|exact Ht'|vm_compute; reflexivity|vm_compute; reflexivity|vm_compute; reflexivity].
  - intro Z. destruct a; discriminate Z.
Qed.
Print Assumptions C105_slot_refuted.

(** Nor does an announcement reach the bus if the module the error belongs to is silent at that moment: the error is taken
    out of the queue and no message is sent, also not later when the module is awake again. *)
Definition hushed : list op := add2 ++ [OpError 5 1 20; OpSilent [109;111;100;50;0] 20 SILENT].
Theorem C105_silent_refuted : exists s s' e, reached E0 hushed s /\ queue_of 8 (n_err s) /\ pending_errors (n_err s) = [e] /\
  run E0 [request 0 5; OpSilent [109;111;100;50;0] 20 AWAKE; request 0 9] s = Ret (tt, s') /\ awake s' 1 = true /\ pending_errors (n_err s') = [] /\
  error_tx s' e <> [] /\ forall new f, n_log s' = n_log s ++ new -> In f (error_tx s' e) -> ~ In f (sent new).
Proof.
  set (ops := [request 0 5; OpSilent [109;111;100;50;0] 20 AWAKE; request 0 9]).
  pose proof (qreached hushed ltac:(vm_compute; reflexivity)) as [R Q]. exists (qafter hushed), (qafter (hushed ++ ops)). eexists. split; [exact R|]. split; [exact Q|].
  split; [vm_compute; reflexivity|]. split; [apply qsplit; vm_compute; reflexivity|]. split; [vm_compute; reflexivity|]. split; [vm_compute; reflexivity|]. split; [vm_compute; discriminate|].
  intros new f L If Z. pose (d := skipn (length (n_log (qafter hushed))) (n_log (qafter (hushed ++ ops)))).
  assert (n_log (qafter (hushed ++ ops)) = n_log (qafter hushed) ++ d) as L2 by (vm_compute; reflexivity). rewrite L2 in L. apply app_inv_head in L. subst new.
  match type of If with In _ ?l => assert (exists g, l = [g] /\ existsb (same_data g) (sent d) = false) as (g & Hg & X) end.
  { eexists. split; [vm_compute; reflexivity|vm_compute; reflexivity]. }
  rewrite Hg in If. destruct If as [<-|[]]. exact (not_in_data _ _ X Z).
Qed.
Print Assumptions C105_silent_refuted.
