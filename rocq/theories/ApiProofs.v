(** Lemmas about lcsa_init and lcsa_start with the persistent download information. *)
From Verif Require Import Words WordsFacts ErrModel NodeModel LookModel XloadModel InfoModel InfoSpec InfoProofs.

Definition frames (tr : list (aop * N * list xobs)) : list xobs := flat_map (fun e => snd e) tr.
(** a start that reported success *)
Definition started (e : aop * N * list xobs) : Prop :=
  match fst (fst e) with AStart _ => snd (fst e) = 0 | _ => False end.
(** the download end acknowledge of a module *)
Definition end_ack (nr : N) : xobs := XFrame (1536 + 4 * (nr - 1) + 1) [27; 0; 0; 0; 0; 0; 0; 0].

Lemma ack_of_eq : forall nr x, exists x', ack_of nr x = (x', [XFrame (ident_of CtrlTx nr 0) [27; 0; 0; 0; 0; 0; 0; 0]], ERR_OK).
Proof. intros. eexists. reflexivity. Qed.

Lemma get_content : forall m m2, length m = 38%nat -> length m2 = 38%nat -> content m = content m2 ->
  get_mode m = get_mode m2 /\ get_nr m = get_nr m2 /\ get_baud m = get_baud m2 /\ get_comp m = get_comp m2.
Proof.
  intros m m2 L L2 E. unfold content in E.
  do 38 (destruct m as [|? m]; [discriminate L|cbn [length] in L]). destruct m; [|discriminate L].
  do 38 (destruct m2 as [|? m2]; [discriminate L2|cbn [length] in L2]). destruct m2; [|discriminate L2].
  cbn [firstn] in E. injection E. intros. subst. repeat split.
Qed.
Lemma set_mode_running : forall C m, length m = 38%nat ->
  get_mode (do_op C m (IMode MODE_RUNNING)) = 4 /\ get_nr (do_op C m (IMode MODE_RUNNING)) = get_nr m /\
  matches C (do_op C m (IMode MODE_RUNNING)).
Proof.
  intros C m L. assert (M : matches C (do_op C m (IMode MODE_RUNNING))) by (eapply do_op_writes; [exact L|reflexivity]).
  assert (L2 : length (do_op C m (IMode MODE_RUNNING)) = 38%nat) by (unfold do_op; rewrite apply_length; exact L).
  assert (E : content (do_op C m (IMode MODE_RUNNING)) = content (apply (stores_at OFF_MODE (le_bytes 4 MODE_RUNNING)) m)).
  { unfold do_op, op_stores. cbn [field_stores]. rewrite apply_app. apply high_content, update_high. }
  apply get_content in E; [|exact L2|rewrite apply_length; exact L]. destruct E as (E1 & E2 & _).
  rewrite E1, E2. split; [|split; [|exact M] ].
  - do 38 (destruct m as [|? m]; [discriminate L|cbn [length] in L]). destruct m; [|discriminate L]. reflexivity.
  - do 38 (destruct m as [|? m]; [discriminate L|cbn [length] in L]). destruct m; [|discriminate L]. reflexivity.
Qed.

(** a state whose information matches keeps it through initialisations, resets and failing starts *)
Definition good (C : crcf) (a : api) : Prop := length (a_mem a) = 38%nat /\ matches C (a_mem a).

Lemma start_other : forall C rec o a, get_mode (a_mem a) <> 3 ->
  exists r st, lcsa_start C rec o a = (r, Api (a_mem a) st (a_startup a) (a_x a), []).
Proof.
  intros C rec o a H. unfold lcsa_start, lcsa_start_cut. destruct (start_head rec o (a_state a)) as [err st].
  destruct (err =? ERR_OK); [|eexists; eexists; reflexivity].
  destruct (N.eqb_spec (get_mode (a_mem a)) MODE_ACKN); [contradiction|]. eexists; eexists; reflexivity.
Qed.
Lemma start_ackn_mode : forall C rec o a, get_mode (a_mem a) = 3 ->
  (exists r st, r <> ERR_OK /\ lcsa_start C rec o a = (r, Api (a_mem a) st (a_startup a) (a_x a), [])) \/
  (exists x', fst (start_head rec o (a_state a)) = ERR_OK /\
     lcsa_start C rec o a = (ERR_OK, Api (do_op C (a_mem a) (IMode MODE_RUNNING)) LST_RUNNING (a_startup a) x',
                             [XFrame (ident_of CtrlTx (get_nr (a_mem a)) 0) [27; 0; 0; 0; 0; 0; 0; 0] ])).
Proof.
  intros C rec o a H. unfold lcsa_start, lcsa_start_cut. destruct (start_head rec o (a_state a)) as [err st].
  destruct (N.eqb_spec err ERR_OK) as [E|E]; [|left; exists err, st; split; [exact E|reflexivity] ].
  right. rewrite H. change (3 =? MODE_ACKN) with true. cbv iota.
  destruct (ack_of_eq (get_nr (a_mem a)) (a_x a)) as [x' A]. rewrite A. exists x'. split; [exact E|reflexivity].
Qed.
Lemma boot_good : forall C b rc a, good C a -> exists st u, lcsa_init C b rc a = (rc, Api (a_mem a) st u (a_x a)) /\
  (get_mode (a_mem a) = 3 -> st = LST_DOWNLOAD /\ u = get_baud (a_mem a)).
Proof.
  intros C b rc a [L M]. unfold lcsa_init. destruct (init_keeps C (a_mem a) L M) as [E _]. rewrite E.
  destruct ((get_mode (a_mem a) =? MODE_ACKN) || (get_mode (a_mem a) =? MODE_OUT) || (get_mode (a_mem a) =? MODE_REBOOT)) eqn:K.
  - eexists; eexists. split; [reflexivity|]. split; reflexivity.
  - eexists; eexists. split; [reflexivity|]. intros H. rewrite H in K. discriminate K.
Qed.

(** no acknowledge is pending: nothing is ever sent, whatever happens *)
Lemma run_quiet : forall C rec size os a, good C a -> get_mode (a_mem a) <> 3 ->
  frames (fst (aruns C rec size a os)) = [] /\ a_mem (snd (aruns C rec size a os)) = a_mem a.
Proof.
  intros C rec size os. induction os as [|o os IH]; intros a G H; [split; reflexivity|].
  cbn [aruns]. destruct o as [b rc|so|]; cbn [astep].
  - destruct (boot_good C b rc a G) as (st & u & E & _). rewrite E.
    specialize (IH (Api (a_mem a) st u (a_x a)) G H). destruct (aruns C rec size _ os) as [tr a2]. exact IH.
  - destruct (start_other C rec so a H) as (r & st & E). rewrite E.
    specialize (IH (Api (a_mem a) st (a_startup a) (a_x a)) G H). destruct (aruns C rec size _ os) as [tr a2]. exact IH.
  - specialize (IH (reset size a) G H). destruct (aruns C rec size _ os) as [tr a2]. exact IH.
Qed.

Lemma run_ackn : forall C rec size nr os a, good C a -> get_mode (a_mem a) = 3 -> get_nr (a_mem a) = nr ->
  forall tr a', aruns C rec size a os = (tr, a') ->
  (Forall (fun e => ~ started e) tr /\ frames tr = [] /\ a_mem a' = a_mem a) \/
  (exists tr1 e tr2, tr = tr1 ++ e :: tr2 /\ Forall (fun e => ~ started e) tr1 /\ started e /\
     frames tr1 = [] /\ snd e = [XFrame (ident_of CtrlTx nr 0) [27; 0; 0; 0; 0; 0; 0; 0] ] /\ frames tr2 = [] /\
     get_mode (a_mem a') = 4 /\ matches C (a_mem a')).
Proof.
  intros C rec size nr os. induction os as [|o os IH]; intros a G H Nr tr a' R.
  - injection R as <- <-. left. split; [constructor|]. split; reflexivity.
  - cbn [aruns] in R. destruct o as [b rc|so|]; cbn [astep] in R.
    + destruct (boot_good C b rc a G) as (st & u & E & _). rewrite E in R.
      destruct (aruns C rec size (Api (a_mem a) st u (a_x a)) os) as [tr2 a2] eqn:R2. injection R as <- <-.
      destruct (IH (Api (a_mem a) st u (a_x a)) G H Nr _ _ R2) as [(A & B & D)|(t1 & e & t2 & A & B & D & F & K)].
      * left. split; [constructor; [intros X; exact X|exact A] |]. split; [exact B|exact D].
      * right. exists ((ABoot b rc, rc, []) :: t1), e, t2. split; [rewrite A; reflexivity|].
        split; [constructor; [intros X; exact X|exact B] |]. split; [exact D|]. split; [exact F|exact K].
    + destruct (start_ackn_mode C rec so a H) as [(r & st & Er & E)|(x' & Eh & E)]; rewrite E in R.
      * destruct (aruns C rec size (Api (a_mem a) st (a_startup a) (a_x a)) os) as [tr2 a2] eqn:R2. injection R as <- <-.
        destruct (IH (Api (a_mem a) st (a_startup a) (a_x a)) G H Nr _ _ R2) as [(A & B & D)|(t1 & e & t2 & A & B & D & F & K)].
        -- left. split; [constructor; [exact Er|exact A] |]. split; [exact B|exact D].
        -- right. exists ((AStart so, r, []) :: t1), e, t2. split; [rewrite A; reflexivity|].
           split; [constructor; [exact Er|exact B] |]. split; [exact D|]. split; [exact F|exact K].
      * destruct (aruns C rec size (Api (do_op C (a_mem a) (IMode MODE_RUNNING)) LST_RUNNING (a_startup a) x') os) as [tr2 a2] eqn:R2.
        injection R as <- <-. right.
        destruct (set_mode_running C (a_mem a) (proj1 G)) as (M1 & M2 & M3).
        assert (G2 : good C (Api (do_op C (a_mem a) (IMode MODE_RUNNING)) LST_RUNNING (a_startup a) x')).
        { split; [cbn [a_mem]; unfold do_op; rewrite apply_length; apply G|exact M3]. }
        assert (H2 : get_mode (a_mem (Api (do_op C (a_mem a) (IMode MODE_RUNNING)) LST_RUNNING (a_startup a) x')) <> 3)
          by (cbn [a_mem]; rewrite M1; discriminate).
        pose proof (run_quiet C rec size os _ G2 H2) as [Q1 Q2]. rewrite R2 in Q1, Q2. cbn [fst snd] in Q1, Q2.
        exists [], (AStart so, ERR_OK, [XFrame (ident_of CtrlTx (get_nr (a_mem a)) 0) [27; 0; 0; 0; 0; 0; 0; 0] ]), tr2.
        split; [reflexivity|]. split; [constructor|]. split; [reflexivity|]. split; [reflexivity|].
        split; [rewrite Nr; reflexivity|]. split; [exact Q1|]. rewrite Q2. split; [exact M1|exact M3].
    + destruct (aruns C rec size (reset size a) os) as [tr2 a2] eqn:R2. injection R as <- <-.
      destruct (IH (reset size a) G H Nr _ _ R2) as [(A & B & D)|(t1 & e & t2 & A & B & D & F & K)].
      * left. split; [constructor; [intros X; exact X|exact A] |]. split; [exact B|exact D].
      * right. exists ((AReset, ERR_OK, []) :: t1), e, t2. split; [rewrite A; reflexivity|].
        split; [constructor; [intros X; exact X|exact B] |]. split; [exact D|]. split; [exact F|exact K].
Qed.
