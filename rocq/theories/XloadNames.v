(** The names of the components keep their nine elements, in every history of messages of eight bytes. *)
From Verif Require Import Words WordsFacts NodeModel LookModel XBufModel XloadModel XloadSpec XloadProofs XloadRun.

Definition named (s : xst) : Prop := length (c_name (x_comp s)) = 9%nat /\ length (c_name (x_vers s)) = 9%nat /\ length (c_name (x_own s)) = 9%nat.
Definition NM (s s' : xst) (_ : list xobs) : Prop := named s -> named s'.
Lemma NM_closed : xclosed NM. Proof. constructor; unfold NM; auto. Qed.
Lemma NM_keep (s s' : xst) : x_comp s' = x_comp s -> x_vers s' = x_vers s -> x_own s' = x_own s -> NM s s' [].
Proof. unfold NM, named. intros -> -> ->. auto. Qed.
Lemma clear_len c : length (c_name c) = 9%nat -> length (c_name (clear_name c)) = 9%nat.
Proof. intro H. unfold clear_name. cbn [c_name set_name]. rewrite app_length, repeat_length, skipn_length. lia. Qed.
Ltac nmod := intro; first [apply NM_keep; reflexivity | intros (NA & NB & NC); split; [|split]; cbn [x_comp x_vers x_own set_comp set_vers set_own set_cnr set_index set_crcid set_ctype set_prog c_name] in *; auto using clear_len].
Ltac nm1 :=
  match goal with
  | |- xpres NM (xbind _ _) => apply xpres_bind; [exact NM_closed| |intro]
  | |- xpres NM (xret _) => apply xpres_ret, NM_closed
  | |- xpres NM xget => apply xpres_get, NM_closed
  | |- xpres NM xfail => apply xpres_fail
  | |- xpres NM (xmod _) => apply xpres_mod; nmod
  | |- xpres NM (xobserve _) => apply xpres_observe; intros ? ?; assumption
  | |- xpres NM (match ?x with _ => _ end) => destruct x
  | |- xpres NM (let '(_, _) := ?x in _) => destruct x
  end.
Ltac nm := repeat nm1.
Lemma nm_send nr d : xpres NM (xsend nr d). Proof. unfold xsend. nm. Qed.
Lemma nm_start_ackn nr m d : xpres NM (start_ackn nr m d). Proof. unfold start_ackn, xsend. nm. Qed.
Lemma nm_end_ackn nr : xpres NM (end_ackn nr). Proof. unfold end_ackn, xsend. nm. Qed.
Lemma nm_termination nr e : xpres NM (termination nr e). Proof. unfold termination, xsend. nm. Qed.
Lemma nm_version_answer nr a b c : xpres NM (version_answer nr a b c). Proof. unfold version_answer, xsend. nm. Qed.
Lemma nm_info_answer nr a b : xpres NM (info_answer nr a b). Proof. unfold info_answer, xsend. nm. Qed.
Lemma nm_ul_end nr : xpres NM (ul_end nr). Proof. unfold ul_end, xsend. nm. Qed.
Lemma nm_ul_block_end nr : xpres NM (ul_block_end nr). Proof. unfold ul_block_end, xsend. nm. Qed.
Lemma nm_ul_loop data len : forall n ticks, (length ticks <= n)%nat -> forall msg old, xpres NM (ul_loop data len msg old ticks).
Proof.
  induction n as [|n IH]; intros [|t r] L msg old; cbn [length] in L; try lia; cbn [ul_loop]; try (nm; fail).
  apply xpres_bind; [exact NM_closed|nm|intro s]. destruct (_ <? t).
  - apply xpres_bind; [exact NM_closed|apply nm_send|intro]. apply xpres_bind; [exact NM_closed|nm|intro]. apply xpres_bind; [exact NM_closed|nm|intro s1].
    destruct (_ <? len).
    + destruct r as [|t2 r2]; [nm|]. destruct (fill _ _ _ _) as [[m c]|]; [|nm]. apply xpres_bind; [exact NM_closed|nm|intro]. apply IH. cbn in L. lia.
    + apply xpres_bind; [exact NM_closed|apply nm_ul_block_end|intro; nm].
  - apply IH. lia.
Qed.
Lemma nm_upload data len ticks : xpres NM (upload data len ticks).
Proof.
  unfold upload. apply xpres_bind; [exact NM_closed|nm|intro]. destruct ticks as [|t r]; [nm|]. apply xpres_bind; [exact NM_closed|nm|intro s].
  destruct (fill _ _ _ _) as [[m c]|]; [|nm]. apply xpres_bind; [exact NM_closed|nm|intro]. apply (nm_ul_loop data len (length r)). lia.
Qed.
Lemma nm_rc m : xpres NM m -> xpres NM (rc_of m).
Proof. intro P. unfold rc_of. apply xpres_bind; [exact NM_closed|exact P|intro; nm]. Qed.
Lemma nm_acall size t c : xpres NM (acall_run size t c).
Proof.
  destruct c; cbn [acall_run].
  - nm.
  - nm.
  - destruct (Nat.eqb_spec (length (c_name c)) 9) as [E|]; [|nm]. apply xpres_bind; [exact NM_closed| |intro; nm]. apply xpres_mod. intro s. destruct t; intros (A & B & C); repeat split; assumption.
  - apply nm_rc, nm_start_ackn.
  - apply nm_rc, nm_end_ackn.
  - apply nm_rc, nm_termination.
  - apply nm_rc, nm_version_answer.
  - apply nm_rc, nm_info_answer.
  - apply xpres_bind; [exact NM_closed|apply nm_upload|intros [|]; nm].
  - apply nm_rc, nm_ul_end.
  - nm.
Qed.
Lemma nm_hrun size t p : xpres NM (hrun size t p).
Proof. induction p as [rc e z|c k IH]; cbn [hrun]; [nm|]. apply xpres_bind; [exact NM_closed|apply nm_acall|exact IH]. Qed.
Lemma nm_call size k t p : xpres NM (call_handler size k t p).
Proof. unfold call_handler. apply xpres_bind; [exact NM_closed|nm|intro s]. destruct (nth _ _ _); [|nm]. apply xpres_bind; [exact NM_closed|nm|intro; apply nm_hrun]. Qed.
Ltac nm3 := repeat (simple apply nm_send || simple apply nm_termination || simple apply nm_call || simple apply nm_end_ackn || simple apply nm_start_ackn || simple apply nm_version_answer || simple apply nm_info_answer || nm1).
Lemma nm_version_pre size nr p : xpres NM (version_pre size nr p). Proof. unfold version_pre. nm3. Qed.
Lemma nm_data size nr d : xpres NM (dload_data size nr d). Proof. unfold dload_data. nm3. Qed.
Lemma nm_block_end size nr d p : xpres NM (block_end size nr d p). Proof. unfold block_end, block_ackn. cbv zeta. nm3. Qed.
Ltac nlen := cbn [c_name set_name]; rewrite ?app_length, ?firstn_length, ?skipn_length; cbn [length]; lia.
Lemma nm_start_request1 d : length d = 8%nat -> xpres NM (start_request1 d). Proof. intro L. unfold start_request1. nm3. nlen. Qed.
Lemma nm_rx size tab silent nr d p : length d = 8%nat -> xpres NM (async_rx size tab silent nr d p).
Proof.
  intro L. unfold async_rx. destruct (nr_valid tab silent nr) as [[pos st] found].
  repeat (match goal with |- xpres NM (if ?c then _ else _) => destruct c end);
  unfold version_short, version_long1, version_long2, start_request2, dload_end, info_short, ul_request1, ul_request2, ul_block_ackn;
  repeat (simple apply nm_version_pre || simple apply nm_data || simple apply nm_block_end || (simple apply nm_start_request1; exact L) || nm3); try nlen.
Qed.
Lemma nm_step size o : numbered o -> xpres NM (xl_step size o).
Proof.
  destruct o as [tab silent nr d p|c|c delay p|k h]; cbn [numbered xl_step]; intro W.
  - apply nm_rx, W.
  - apply xpres_bind; [exact NM_closed|apply nm_acall|intro; nm3].
  - apply xpres_bind; [exact NM_closed| |intro; unfold dload_start; nm3]. apply xpres_mod. intros s (A & B & C). repeat split; assumption.
  - unfold register. nm3.
Qed.
Lemma named_run size : forall ops s es s' o, Forall numbered ops -> named s -> xl_run size ops s = Some (es, s', o) -> named s'.
Proof.
  induction ops as [|x r IH]; intros s es s' o F NM0 H; cbn [xl_run] in H; [injection H as <- <- <-; exact NM0|]. inversion F; subst.
  apply xbind_inv in H as (e & s1 & o1 & o2 & E & H & _). apply xbind_inv in H as (e2 & s2 & o3 & o4 & E2 & H & _). injection H as _ <- _.
  apply (IH s1 e2 s2 o3); auto. exact (nm_step size x H2 _ _ _ _ E NM0).
Qed.
Lemma named_zero size : named (xst_zero size). Proof. repeat split. Qed.
