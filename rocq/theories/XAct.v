(** Proofs about the query li_can_slv_xload_active. *)
From Verif Require Import Words ErrModel NodeModel LookModel LookSpec XBufModel XBufSpec AsyncSpec LookProofs XloadModel XloadSpec XloadProofs XloadRun XActSpec.

Definition is_end (ob : xobs) : bool := match ob with XFrame _ (b :: _) => (b =? 27) || (b =? 28) | _ => false end.
Lemma end_sent_b obs : end_sent obs <-> existsb is_end obs = true.
Proof.
  rewrite existsb_exists. split.
  - intros (id & b & r & I & H). exists (XFrame id (b :: r)). split; [exact I|]. cbn. destruct H as [->| ->]; reflexivity.
  - intros ([id [|b r]| |] & I & H); try discriminate H. exists id, b, r. split; [exact I|]. cbn in H. apply orb_true_iff in H. rewrite !N.eqb_eq in H. exact H.
Qed.
Lemma active_eq size s : active size s <-> x_prog s = InProgress.
Proof.
  unfold active. cbn [acall_run]. rewrite xbind_get. unfold xret. split.
  - intros (s' & o & H). destruct (x_prog s); first [reflexivity|discriminate].
  - intros ->. eauto.
Qed.

(** the flag stays unless an end is sent *)
Definition AR (s s' : xst) (o : list xobs) : Prop := x_prog s' = if existsb is_end o then Idle else x_prog s.
Lemma AR_closed : xclosed AR.
Proof.
  constructor; [reflexivity|]. unfold AR. intros s1 s2 s3 o1 o2 A B. rewrite existsb_app, B, A. destruct (existsb is_end o1), (existsb is_end o2); reflexivity.
Qed.
Ltac ar1 :=
  match goal with
  | |- xpres AR (xbind _ _) => apply xpres_bind; [exact AR_closed| |intro]
  | |- xpres AR (xret _) => apply xpres_ret, AR_closed
  | |- xpres AR xget => apply xpres_get, AR_closed
  | |- xpres AR xfail => apply xpres_fail
  | |- xpres AR (xmod _) => apply xpres_mod; intro; reflexivity
  | |- xpres AR (xobserve (XFrame _ (_ :: _))) => apply xpres_observe; intro; reflexivity
  | |- xpres AR (xobserve (XUsed _ _)) => apply xpres_observe; intro; reflexivity
  | |- xpres AR (xobserve (XCalled _ _ _)) => apply xpres_observe; intro; reflexivity
  | |- xpres AR (match ?x with _ => _ end) => destruct x
  | |- xpres AR (let '(_, _) := ?x in _) => destruct x
  end.
Ltac ar := repeat ar1.
Lemma ar_start_ackn nr m d : xpres AR (start_ackn nr m d). Proof. unfold start_ackn, xsend. ar. Qed.
Lemma ar_end_ackn nr : xpres AR (end_ackn nr).
Proof. intros s a s' o H. unfold end_ackn, xsend, xbind, xmod, xobserve, xret in H. injection H as <- <- <-. reflexivity. Qed.
Lemma ar_termination nr e : xpres AR (termination nr e).
Proof. intros s a s' o H. unfold termination, xsend, xbind, xmod, xobserve, xret in H. injection H as <- <- <-. reflexivity. Qed.
Lemma ar_version_answer nr a b c : xpres AR (version_answer nr a b c). Proof. unfold version_answer, xsend. cbn [app]. ar. Qed.
Lemma ar_info_answer nr a b : xpres AR (info_answer nr a b). Proof. unfold info_answer, xsend. cbn [app]. ar. Qed.
Lemma ar_ul_end nr : xpres AR (ul_end nr). Proof. unfold ul_end, xsend. ar. Qed.
Lemma ar_ul_block_end nr : xpres AR (ul_block_end nr). Proof. unfold ul_block_end, xsend. ar. Qed.
Lemma ar_data_msg nr m : xpres AR (xsend nr (21 :: m)). Proof. unfold xsend. ar. Qed.
Lemma ar_ul_loop data len : forall n ticks, (length ticks <= n)%nat -> forall msg old, xpres AR (ul_loop data len msg old ticks).
Proof.
  induction n as [|n IH]; intros [|t r] L msg old; cbn [length] in L; try lia; cbn [ul_loop]; try (ar; fail).
  apply xpres_bind; [exact AR_closed|ar|intro s]. destruct (_ <? t).
  - apply xpres_bind; [exact AR_closed|apply ar_data_msg|intro]. apply xpres_bind; [exact AR_closed|ar|intro]. apply xpres_bind; [exact AR_closed|ar|intro s1].
    destruct (_ <? len).
    + destruct r as [|t2 r2]; [ar|]. destruct (fill _ _ _ _) as [[m c]|]; [|ar]. apply xpres_bind; [exact AR_closed|ar|intro]. apply IH. cbn in L. lia.
    + apply xpres_bind; [exact AR_closed|apply ar_ul_block_end|intro; ar].
  - apply IH. lia.
Qed.
Lemma ar_upload data len ticks : xpres AR (upload data len ticks).
Proof.
  unfold upload. apply xpres_bind; [exact AR_closed|ar|intro]. destruct ticks as [|t r]; [ar|]. apply xpres_bind; [exact AR_closed|ar|intro s].
  destruct (fill _ _ _ _) as [[m c]|]; [|ar]. apply xpres_bind; [exact AR_closed|ar|intro]. apply (ar_ul_loop data len (length r)). lia.
Qed.
Lemma ar_rc m : xpres AR m -> xpres AR (rc_of m).
Proof. intro P. unfold rc_of. apply xpres_bind; [exact AR_closed|exact P|intro; ar]. Qed.
Lemma ar_acall size t c : xpres AR (acall_run size t c).
Proof.
  destruct c; cbn [acall_run].
  - ar.
  - ar.
  - destruct (_ =? _)%nat; [|ar]. apply xpres_bind; [exact AR_closed| |intro; ar]. apply xpres_mod. intro s. destruct t; reflexivity.
  - apply ar_rc, ar_start_ackn.
  - apply ar_rc, ar_end_ackn.
  - apply ar_rc, ar_termination.
  - apply ar_rc, ar_version_answer.
  - apply ar_rc, ar_info_answer.
  - apply xpres_bind; [exact AR_closed|apply ar_upload|intros [|]; ar].
  - apply ar_rc, ar_ul_end.
  - ar.
Qed.
Lemma ar_hrun size t p : xpres AR (hrun size t p).
Proof. induction p as [rc e z|c k IH]; cbn [hrun]; [ar|]. apply xpres_bind; [exact AR_closed|apply ar_acall|exact IH]. Qed.
Lemma ar_call size k t p : xpres AR (call_handler size k t p).
Proof.
  unfold call_handler. apply xpres_bind; [exact AR_closed|ar|intro s]. destruct (nth _ _ _); [|ar]. apply xpres_bind; [exact AR_closed|ar|intro]. apply ar_hrun.
Qed.
Lemma ar_block_ackn nr : xpres AR (block_ackn nr). Proof. unfold block_ackn, xsend. ar. Qed.
Ltac ar3 := repeat (simple apply ar_block_ackn || simple apply ar_termination || simple apply ar_call || simple apply ar_end_ackn || simple apply ar_start_ackn || simple apply ar_version_answer || simple apply ar_info_answer || ar1).
Lemma ar_version_pre size nr p : xpres AR (version_pre size nr p). Proof. unfold version_pre. ar3. Qed.
Lemma ar_data size nr d : xpres AR (dload_data size nr d). Proof. unfold dload_data. ar3. Qed.
Lemma ar_block_end size nr d p : xpres AR (block_end size nr d p). Proof. unfold block_end. cbv zeta. ar3. Qed.
Lemma ar_start_request1 d : xpres AR (start_request1 d). Proof. unfold start_request1. ar3. Qed.

(** a part of the code that sets the flag first *)
Lemma begin_run {A} (m : X A) s a s' o : xpres AR m -> xbind (xmod (fun s => set_prog s InProgress)) (fun _ => m) s = Some (a, s', o) -> x_prog s' = if existsb is_end o then Idle else InProgress.
Proof. intros P H. rewrite xbind_mod in H. apply P in H. exact H. Qed.
Lemma then_refuse nr (m : X N) s a s' o : (forall s r s1 o1, m s = Some (r, s1, o1) -> x_prog s1 = if existsb is_end o1 then Idle else InProgress) ->
  xbind m (fun rc => if rc =? ERR_OK then xret rc else xbind (termination nr rc) (fun _ => xret rc)) s = Some (a, s', o) -> x_prog s' = if existsb is_end o then Idle else InProgress.
Proof.
  intros P H. apply xbind_inv in H as (rc & s1 & o1 & o2 & E1 & E2 & ->). apply P in E1. rewrite existsb_app.
  assert (AR s1 s' o2) as R.
  { revert E2. match goal with |- ?m0 s1 = _ -> _ => enough (xpres AR m0) as Q by (intro E2; exact (Q _ _ _ _ E2)) end. ar3. }
  rewrite R, E1. destruct (existsb is_end o1), (existsb is_end o2); reflexivity.
Qed.
Lemma req2_flag size type nr d p s a s' o : start_request2 size type nr d p s = Some (a, s', o) -> x_prog s' = if existsb is_end o then Idle else InProgress.
Proof.
  unfold start_request2. rewrite xbind_get. destruct (x_prog s) eqn:Q; swap 1 2.
  - apply then_refuse. intros s0 r s1 o1 E. revert E. apply begin_run. ar3.
  - rewrite xbind_ret. change (E_DL_IN_PROGRESS =? ERR_OK) with false. cbv iota. intro H.
    apply xbind_inv in H as (rc & s1 & o1 & o2 & E1 & E2 & ->). injection E2 as <- <- <-. rewrite app_nil_r.
    unfold termination, xsend, xbind, xmod, xobserve, xret in E1. injection E1 as <- <- <-. reflexivity.
Qed.
Lemma ulreq2_flag size nr d p s a s' o : ul_request2 size nr d p s = Some (a, s', o) -> x_prog s' = if existsb is_end o then Idle else InProgress.
Proof.
  unfold ul_request2. rewrite xbind_get. destruct (x_prog s) eqn:Q; swap 1 2.
  - apply then_refuse. intros s0 r s1 o1 E. revert E. apply begin_run. ar3.
  - rewrite xbind_ret. change (E_DL_IN_PROGRESS =? ERR_OK) with false. cbv iota. intro H.
    apply xbind_inv in H as (rc & s1 & o1 & o2 & E1 & E2 & ->). injection E2 as <- <- <-. rewrite app_nil_r.
    unfold termination, xsend, xbind, xmod, xobserve, xret in E1. injection E1 as <- <- <-. reflexivity.
Qed.
Lemma start_flag size delay p s a s' o : dload_start size delay p s = Some (a, s', o) -> x_prog s' = if existsb is_end o then Idle else InProgress.
Proof. unfold dload_start. apply begin_run. ar3. Qed.

Definition code (d : list byte) : N := nth 0 d 0.
Lemma rx_flag size tab silent nr d p s a s' o : listening tab silent nr -> async_rx size tab silent nr d p s = Some (a, s', o) ->
  x_prog s' = if existsb is_end o then Idle else if (code d =? 20) || (code d =? 30) then InProgress else if (code d =? 27) || (code d =? 28) then Idle else x_prog s.
Proof.
  intros LI H. destruct (rx_listening size tab silent nr d p s LI) as (pos & _ & E). rewrite E in H. clear E. cbv zeta in H. fold (code d) in H. set (c := code d) in *. clearbody c.
  assert (K : forall m : X N, xpres AR m -> m s = Some (a, s', o) -> x_prog s' = if existsb is_end o then Idle else x_prog s) by (intros m P Q; exact (P _ _ _ _ Q)).
  destruct (N.eqb_spec c 16) as [Ec|]; [subst c; refine (K _ _ H); unfold version_short; apply xpres_bind; [exact AR_closed|ar|intro; apply ar_version_pre]|].
  destruct (N.eqb_spec c 17) as [Ec|]; [subst c; refine (K _ _ H); unfold version_long1; ar|].
  destruct (N.eqb_spec c 18) as [Ec|]; [subst c; refine (K _ _ H); unfold version_long2; apply xpres_bind; [exact AR_closed|ar|intro; apply ar_version_pre]|].
  destruct (N.eqb_spec c 19) as [Ec|]; [subst c; refine (K _ _ H); apply ar_start_request1|].
  destruct (N.eqb_spec c 20) as [Ec|]; [subst c; exact (req2_flag _ _ _ _ _ _ _ _ _ H)|].
  destruct (N.eqb_spec c 21) as [Ec|]; [subst c; refine (K _ _ H); apply ar_data|].
  destruct (N.eqb_spec c 22) as [Ec|]; [subst c; refine (K _ _ H); apply ar_block_end|].
  destruct (N.eqb_spec c 23) as [Ec|]; [subst c; refine (K _ _ H); unfold dload_end; ar3|].
  destruct (N.eqb_spec c 24) as [Ec|]; [subst c; refine (K _ _ H); ar|].
  destruct (N.eqb_spec c 25) as [Ec|]; [subst c; refine (K _ _ H); ar|].
  destruct (N.eqb_spec c 26) as [Ec|]; [subst c; refine (K _ _ H); unfold ul_block_ackn; ar3|].
  destruct (N.eqb_spec c 27) as [Ec|]; [subst c; rewrite xbind_mod in H; injection H as <- <- <-; reflexivity|].
  destruct (N.eqb_spec c 28) as [Ec|]; [subst c; rewrite xbind_mod in H; injection H as <- <- <-; reflexivity|].
  destruct (N.eqb_spec c 80) as [Ec|]; [subst c; refine (K _ _ H); unfold info_short; ar3|].
  destruct (N.eqb_spec c 29) as [Ec|]; [subst c; refine (K _ _ H); unfold ul_request1; apply xpres_bind; [exact AR_closed|ar|intro; apply xpres_bind; [exact AR_closed|ar|intro; apply ar_start_request1]]|].
  destruct (N.eqb_spec c 30) as [Ec|]; [subst c; exact (ulreq2_flag _ _ _ _ _ _ _ _ H)|].
  refine (K _ _ H). ar.
Qed.

Lemma step_flag size o s e s' ob : xl_step size o s = Some (e, s', ob) ->
  (begins o -> x_prog s' = if existsb is_end ob then Idle else InProgress) /\
  (end_received o -> x_prog s' = Idle) /\
  (~ begins o -> ~ end_received o -> x_prog s' = if existsb is_end ob then Idle else x_prog s).
Proof.
  intros H. destruct o as [tab silent nr d p|c|c delay p|k h]; cbn [xl_step] in H.
  - assert (DEC : listening tab silent nr \/ ~ listening tab silent nr).
    { destruct (by_nr tab silent nr) as [(q & FQ & E)|[NO E]].
      - destruct (N.eq_dec (nth q silent 0) SILENT) as [Z|Z]; [right|left; exists q; auto]. intros (q' & FQ' & Z'). assert (q = q') as -> by (eapply first_unique; eauto). congruence.
      - right. intros (q' & (L & FQ' & _) & _). exact (NO q' L FQ'). }
    destruct DEC as [L|L].
    + pose proof (rx_flag _ _ _ _ _ _ _ _ _ _ L H) as F. split; [|split].
      * intros [(t & z & n & b & r & q & E & _ & Hb)|(? & ? & ? & E)]; [|discriminate E]. injection E as <- <- <- -> <-. change (code (b :: r)) with b in F. destruct Hb as [->| ->]; exact F.
      * intros (t & z & n & b & r & q & E & _ & Hb). injection E as <- <- <- -> <-. change (code (b :: r)) with b in F. rewrite F. destruct (existsb _ _); [reflexivity|]. destruct Hb as [->| ->]; reflexivity.
      * intros Nb Ne. rewrite F. destruct (existsb _ _); [reflexivity|]. destruct d as [|b r]; [reflexivity|]. change (code (b :: r)) with b.
        destruct (_ || _) eqn:Q1; [exfalso; apply Nb; left; exists tab, silent, nr, b, r, p; split; [reflexivity|]; split; [exact L|]; apply orb_true_iff in Q1; rewrite !N.eqb_eq in Q1; exact Q1|].
        destruct ((b =? 27) || _) eqn:Q2; [exfalso; apply Ne; exists tab, silent, nr, b, r, p; split; [reflexivity|]; split; [exact L|]; apply orb_true_iff in Q2; rewrite !N.eqb_eq in Q2; exact Q2|]. reflexivity.
    + rewrite rx_deaf in H by exact L. injection H as <- <- <-. split; [|split].
      * intros [(t & z & n & b & r & q & E & L' & Hb)|(? & ? & ? & E)]; [|discriminate E]. injection E as <- <- <- -> <-. contradiction.
      * intros (t & z & n & b & r & q & E & L' & Hb). injection E as <- <- <- -> <-. contradiction.
      * reflexivity.
  - apply xbind_inv in H as (r & s1 & o1 & o2 & E1 & E2 & ->). injection E2 as <- <- <-. rewrite app_nil_r. apply ar_acall in E1. split; [|split].
    + intros [(t & z & n & b & r' & q & E & _)|(? & ? & ? & E)]; discriminate E.
    + intros (t & z & n & b & r' & q & E & _). discriminate E.
    + intros _ _. exact E1.
  - rewrite xbind_mod in H. apply start_flag in H. split; [|split].
    + intros _. exact H.
    + intros (t & z & n & b & r' & q & E & _). discriminate E.
    + intros Nb. exfalso. apply Nb. right. eauto.
  - assert (AR s s' ob) as R by (revert H; match goal with |- ?m s = _ -> _ => enough (xpres AR m) as Q by (intro H; exact (Q _ _ _ _ H)) end; unfold register; ar). split; [|split].
    + intros [(t & z & n & b & r' & q & E & _)|(? & ? & ? & E)]; discriminate E.
    + intros (t & z & n & b & r' & q & E & _). discriminate E.
    + intros _ _. exact R.
Qed.
Lemma begins_dec size o s e s' ob : xl_step size o s = Some (e, s', ob) -> (begins o \/ ~ begins o) /\ (end_received o \/ ~ end_received o).
Proof.
  intros _. destruct o as [tab silent nr d p|c|c delay p|k h].
  - assert (DEC : listening tab silent nr \/ ~ listening tab silent nr).
    { destruct (by_nr tab silent nr) as [(q & FQ & E)|[NO E]].
      - destruct (N.eq_dec (nth q silent 0) SILENT) as [Z|Z]; [right|left; exists q; auto]. intros (q' & FQ' & Z'). assert (q = q') as -> by (eapply first_unique; eauto). congruence.
      - right. intros (q' & (L & FQ' & _) & _). exact (NO q' L FQ'). }
    destruct DEC as [L|L].
    + destruct d as [|b r]; [split; right; [intros [(t & z & n & b & r & q & E & _)|(? & ? & ? & E)]; discriminate E|intros (t & z & n & b & r & q & E & _); discriminate E]|].
      split.
      * destruct (N.eq_dec b 20) as [->|N1]; [left; left; exists tab, silent, nr, 20, r, p; auto|]. destruct (N.eq_dec b 30) as [->|N2]; [left; left; exists tab, silent, nr, 30, r, p; auto|].
        right. intros [(t & z & n & b' & r' & q & E & _ & Hb)|(? & ? & ? & E)]; [|discriminate E]. injection E as <- <- <- <- <- <-. tauto.
      * destruct (N.eq_dec b 27) as [->|N1]; [left; exists tab, silent, nr, 27, r, p; auto|]. destruct (N.eq_dec b 28) as [->|N2]; [left; exists tab, silent, nr, 28, r, p; auto|].
        right. intros (t & z & n & b' & r' & q & E & _ & Hb). injection E as <- <- <- <- <- <-. tauto.
    + split; right; [intros [(t & z & n & b & r & q & E & L' & _)|(? & ? & ? & E)]; [injection E as <- <- <- -> <-; contradiction|discriminate E]|intros (t & z & n & b & r & q & E & L' & _); injection E as <- <- <- -> <-; contradiction].
  - split; right; [intros [(t & z & n & b & r & q & E & _)|(? & ? & ? & E)]; discriminate E|intros (t & z & n & b & r & q & E & _); discriminate E].
  - split; [left; right; eauto|right; intros (t & z & n & b & r & q & E & _); discriminate E].
  - split; right; [intros [(t & z & n & b & r & q & E & _)|(? & ? & ? & E)]; discriminate E|intros (t & z & n & b & r & q & E & _); discriminate E].
Qed.
