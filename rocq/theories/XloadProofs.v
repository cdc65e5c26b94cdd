(** Proofs about the download and upload protocol. *)
From Verif Require Import Words WordsFacts Bits Ring ErrModel ErrSpec ErrProofs NodeModel LookModel LookSpec LookProofs XBufModel XBufSpec XBufProofs AsyncSpec AsyncProofs XloadModel XloadSpec.

Lemma xbind_ret {A B} (a : A) (f : A -> X B) s : xbind (xret a) f s = f a s.
Proof. unfold xbind, xret. destruct (f a s) as [[[b s2] o]|]; reflexivity. Qed.
Lemma xbind_get {B} (f : xst -> X B) s : xbind xget f s = f s s.
Proof. unfold xbind, xget. destruct (f s s) as [[[b s2] o]|]; reflexivity. Qed.
Lemma xbind_mod {B} g (f : unit -> X B) s : xbind (xmod g) f s = f tt (g s).
Proof. unfold xbind, xmod. destruct (f tt (g s)) as [[[b s2] o]|]; reflexivity. Qed.
Lemma xbind_observe {B} o (f : unit -> X B) s : xbind (xobserve o) f s = match f tt s with Some (b, s2, os) => Some (b, s2, o :: os) | None => None end.
Proof. unfold xbind, xobserve. destruct (f tt s) as [[[b s2] os]|]; reflexivity. Qed.
Lemma xbind_some {A B} (m : X A) (f : A -> X B) s a s1 o1 : m s = Some (a, s1, o1) ->
  xbind m f s = match f a s1 with Some (b, s2, o2) => Some (b, s2, o1 ++ o2) | None => None end.
Proof. unfold xbind. intros ->. destruct (f a s1) as [[[b s2] o]|]; reflexivity. Qed.
Lemma xbind_inv {A B} (m : X A) (f : A -> X B) s b s2 o : xbind m f s = Some (b, s2, o) ->
  exists a s1 o1 o2, m s = Some (a, s1, o1) /\ f a s1 = Some (b, s2, o2) /\ o = o1 ++ o2.
Proof.
  unfold xbind. destruct (m s) as [[[a s1] o1]|]; [|discriminate]. destruct (f a s1) as [[[b' s2'] o2]|] eqn:E; [|discriminate].
  intro H. injection H as <- <- <-. eauto 8.
Qed.

Lemma ctl_ident nr : 1 <= nr -> nr < 256 -> ident_of CtrlTx nr 0 = ctl_id nr.
Proof. intros A B. unfold ident_of, can_ident, ctl_id. cbn [class_base has_objects]. unfold u16. change (N.of_nat 0) with 0. lia. Qed.

(** ** invariants kept by every operation *)
(** [xpres R m]: every run of [m] relates its start, its end and its observations by [R] *)
Definition xpres {A} (R : xst -> xst -> list xobs -> Prop) (m : X A) : Prop := forall s a s' o, m s = Some (a, s', o) -> R s s' o.
Record xclosed (R : xst -> xst -> list xobs -> Prop) : Prop := {
  xc_refl : forall s, R s s [];
  xc_trans : forall s1 s2 s3 o1 o2, R s1 s2 o1 -> R s2 s3 o2 -> R s1 s3 (o1 ++ o2)
}.
Lemma xpres_ret {A} R (a : A) : xclosed R -> xpres R (xret a).
Proof. intros C s x s' o H. injection H as <- <- <-. apply xc_refl. exact C. Qed.
Lemma xpres_get R : xclosed R -> xpres R xget.
Proof. intros C s x s' o H. injection H as <- <- <-. apply xc_refl. exact C. Qed.
Lemma xpres_fail {A} R : xpres R (xfail (A:=A)).
Proof. intros s x s' o H. discriminate. Qed.
Lemma xpres_bind {A B} R (m : X A) (f : A -> X B) : xclosed R -> xpres R m -> (forall a, xpres R (f a)) -> xpres R (xbind m f).
Proof. intros C P Q s b s2 o H. apply xbind_inv in H as (a & s1 & o1 & o2 & E1 & E2 & ->). eapply xc_trans; eauto. exact (Q _ _ _ _ _ E2). Qed.
Lemma xpres_mod (R : xst -> xst -> list xobs -> Prop) f : (forall s, R s (f s) []) -> xpres R (xmod f).
Proof. intros C s x s' o H. injection H as <- <- <-. apply C. Qed.
Lemma xpres_observe (R : xst -> xst -> list xobs -> Prop) ob : (forall s, R s s [ob]) -> xpres R (xobserve ob).
Proof. intros C s x s' o H. injection H as <- <- <-. apply C. Qed.

(** the handlers stay, and calls go to the registered handler *)
Definition HR (s s' : xst) (o : list xobs) : Prop :=
  x_hand s' = x_hand s /\ forall k h c, In (XCalled k h c) o -> nth (hidx k) (x_hand s) None = Some h.
(** the array of the buffer keeps its length *)
Definition BR (s s' : xst) (_ : list xobs) : Prop := length (xb_data (x_buf s')) = length (xb_data (x_buf s)).
Lemma HR_closed : xclosed HR.
Proof.
  constructor; [intro s; split; [reflexivity|intros k h c []]|]. intros s1 s2 s3 o1 o2 [A B] [C D]. split; [congruence|].
  intros k h c H. apply in_app_or in H as [H|H]; [eauto|]. rewrite <- A. eauto.
Qed.
Lemma BR_closed : xclosed BR.
Proof. constructor; [reflexivity|]. unfold BR. intros; congruence. Qed.
Lemma BR_HR : xclosed (fun s s' o => HR s s' o /\ BR s s' o).
Proof.
  constructor; [intro s; split; [apply HR_closed|apply BR_closed]|]. intros s1 s2 s3 o1 o2 [A B] [C D]. split; [eapply HR_closed|eapply BR_closed]; eauto.
Qed.
Lemma upd_len {A} : forall (l : list A) i x l', upd l i x = Some l' -> length l' = length l.
Proof. induction l; intros [|i] x l' H; cbn in H; try discriminate; [injection H as <-; reflexivity|]. destruct (upd l i x) eqn:E; [|discriminate]. injection H as <-. cbn. f_equal. eauto. Qed.
Lemma add_len size b x b' e : xb_add size b x = Some (b', e) -> length (xb_data b') = length (xb_data b).
Proof. unfold xb_add. destruct (_ <=? _)%nat; [intro H; injection H as <- <-; reflexivity|]. destruct (upd _ _ _) eqn:E; [|discriminate]. intro H. injection H as <- <-. cbn. eapply upd_len; eauto. Qed.
Lemma get_len size b b' r : xb_get size b = Some (b', r) -> xb_data b' = xb_data b.
Proof. unfold xb_get. destruct (_ =? _)%nat; [intro H; injection H as <- <-; reflexivity|]. destruct (nth_error _ _) eqn:E; [|discriminate]. intro H. injection H as <- <-. reflexivity. Qed.
Lemma chars_len size n : forall b b' r, xb_get_chars size b n = Some (b', r) -> xb_data b' = xb_data b.
Proof.
  induction n as [|n IH]; intros b b' r H; cbn in H; [injection H as <- <-; reflexivity|].
  destruct (xb_get size b) as [[b1 [e [x|]]]|] eqn:E; [| |discriminate].
  - destruct (xb_get_chars size b1 n) as [[b2 [e2 xs]]|] eqn:E2; [|discriminate]. injection H as <- <-. rewrite (IH _ _ _ E2). eapply get_len; eauto.
  - injection H as <- <-. eapply get_len; eauto.
Qed.
Lemma hex_len size n c b b' r : xb_get_hex size n c b = Some (b', r) -> xb_data b' = xb_data b.
Proof.
  unfold xb_get_hex. destruct (xb_get_chars size b n) as [[b1 [e cs]]|] eqn:E; [|discriminate]. apply chars_len in E.
  destruct (e =? ERR_OK); intro H; injection H as <- <-; exact E.
Qed.
Lemma addloop_len size l : forall b b' e, xb_add_loop size b l = Some (b', e) -> length (xb_data b') = length (xb_data b).
Proof.
  induction l as [|x r IH]; intros b b' e H; cbn in H; [injection H as <- <-; reflexivity|].
  destruct (xb_add size b x) as [[b1 e1]|] eqn:E; [|discriminate]. apply add_len in E. destruct (e1 =? ERR_OK); [apply IH in H; congruence|]. injection H as <- <-. exact E.
Qed.
Lemma xbstep_len size b o b' r : xb_step size b o = Some (b', r) -> length (xb_data b') = length (xb_data b).
Proof.
  destruct o; cbn [xb_step]; intro H.
  - destruct (xb_add size b x) as [[b1 e]|] eqn:E; [|discriminate]. injection H as <- <-. eapply add_len; eauto.
  - destruct (xb_get size b) as [[b1 [e v]]|] eqn:E; [|discriminate]. injection H as <- <-. erewrite get_len; eauto.
  - unfold xb_get_str_byte in H. destruct (xb_get_hex size 2 u8 b) as [[b1 [e v]]|] eqn:E; [|discriminate]. injection H as <- <-. erewrite hex_len; eauto.
  - unfold xb_get_str_uint16 in H. destruct (xb_get_hex size 2 u16 b) as [[b1 [e v]]|] eqn:E; [|discriminate]. injection H as <- <-. erewrite hex_len; eauto.
  - unfold xb_get_str_uint32 in H. destruct (xb_get_hex size 4 u32 b) as [[b1 [e v]]|] eqn:E; [|discriminate]. injection H as <- <-. erewrite hex_len; eauto.
  - injection H as <- <-. reflexivity.
  - destruct (xb_add_str size b src) as [[b1 e]|] eqn:E; [|discriminate]. injection H as <- <-. unfold xb_add_str in E. destruct (_ <? _)%nat; [eapply addloop_len; eauto|]. injection E as <- <-. reflexivity.
  - unfold xb_remove in H. destruct (_ <? _)%nat; injection H as <- <-; reflexivity.
  - injection H as <- <-. reflexivity.
  - injection H as <- <-. reflexivity.
Qed.
Definition IR (s s' : xst) (o : list xobs) : Prop := HR s s' o /\ BR s s' o.
Lemma IR_closed : xclosed IR. Proof. exact BR_HR. Qed.
Lemma IR_keep s s' : x_hand s' = x_hand s -> x_buf s' = x_buf s -> IR s s' [].
Proof. intros A B. split; [split; [exact A|intros k h c []]|]. unfold BR. rewrite B. reflexivity. Qed.

Ltac ir1 :=
  match goal with
  | |- xpres IR (xbind _ _) => apply xpres_bind; [exact IR_closed| |intro]
  | |- xpres IR (xret _) => apply xpres_ret, IR_closed
  | |- xpres IR xget => apply xpres_get, IR_closed
  | |- xpres IR xfail => apply xpres_fail
  | |- xpres IR (xmod _) => apply xpres_mod; intro; apply IR_keep; reflexivity
  | |- xpres IR (xobserve (XFrame _ _)) => apply xpres_observe; intro; split; [split; [reflexivity|intros ? ? ? [E|[]]; discriminate]|reflexivity]
  | |- xpres IR (match ?x with _ => _ end) => destruct x
  | |- xpres IR (let '(_, _) := ?x in _) => destruct x
  end.
Ltac ir := repeat ir1.
Lemma ir_send nr d : xpres IR (xsend nr d). Proof. unfold xsend. ir. Qed.
Ltac ir2 := repeat (simple apply ir_send || ir1).
Lemma ir_start_ackn nr m d : xpres IR (start_ackn nr m d).
Proof. unfold start_ackn. apply xpres_bind; [exact IR_closed|ir2|intro]. apply xpres_bind; [exact IR_closed| |intro; ir2].
  apply xpres_mod. intro s. split; [split; [reflexivity|intros k h c []]|reflexivity]. Qed.
Lemma ir_end_ackn nr : xpres IR (end_ackn nr). Proof. unfold end_ackn. ir2. Qed.
Lemma ir_termination nr e : xpres IR (termination nr e). Proof. unfold termination. ir2. Qed.
Lemma ir_version_answer nr a b c : xpres IR (version_answer nr a b c). Proof. unfold version_answer. ir2. Qed.
Lemma ir_info_answer nr a b : xpres IR (info_answer nr a b). Proof. unfold info_answer. ir2. Qed.
Lemma ir_ul_end nr : xpres IR (ul_end nr). Proof. unfold ul_end. ir2. Qed.
Lemma ir_ul_block_end nr : xpres IR (ul_block_end nr). Proof. unfold ul_block_end. ir2. Qed.
Lemma ir_ul_loop data len : forall n ticks, (length ticks <= n)%nat -> forall msg old, xpres IR (ul_loop data len msg old ticks).
Proof.
  induction n as [|n IH]; intros [|t r] L msg old; cbn [length] in L; try lia; cbn [ul_loop]; try (ir2; fail).
  apply xpres_bind; [exact IR_closed|ir2|intro s]. destruct (_ <? t).
  - apply xpres_bind; [exact IR_closed|ir2|intro]. apply xpres_bind; [exact IR_closed|ir2|intro]. apply xpres_bind; [exact IR_closed|ir2|intro s1].
    destruct (_ <? len).
    + destruct r as [|t2 r2]; [ir2|]. destruct (fill _ _ _ _) as [[m c]|]; [|ir2]. apply xpres_bind; [exact IR_closed|ir2|intro]. apply IH. cbn in L. lia.
    + apply xpres_bind; [exact IR_closed|apply ir_ul_block_end|intro; ir2].
  - apply IH. lia.
Qed.
Lemma ir_upload data len ticks : xpres IR (upload data len ticks).
Proof.
  unfold upload. apply xpres_bind; [exact IR_closed|ir2|intro]. destruct ticks as [|t r]; [ir2|]. apply xpres_bind; [exact IR_closed|ir2|intro s].
  destruct (fill _ _ _ _) as [[m c]|]; [|ir2]. apply xpres_bind; [exact IR_closed|ir2|intro]. apply (ir_ul_loop data len (length r)). lia.
Qed.
Lemma ir_rc m : xpres IR m -> xpres IR (rc_of m).
Proof. intro P. unfold rc_of. apply xpres_bind; [exact IR_closed|exact P|intro; ir2]. Qed.
Lemma ir_acall size t c : xpres IR (acall_run size t c).
Proof.
  destruct c; cbn [acall_run].
  - intros s a s' ob H. rewrite xbind_get in H. destruct (xb_step size (x_buf s) o) as [[b r]|] eqn:E; [|discriminate].
    rewrite xbind_mod, xbind_observe in H. injection H as <- <- <-. split; [split; [reflexivity|intros k h c [C|[]]; discriminate]|].
    unfold BR. cbn. eapply xbstep_len; eauto.
  - ir2.
  - destruct (_ =? _)%nat; [|ir2]. apply xpres_bind; [exact IR_closed| |intro; ir2]. apply xpres_mod. intro s. destruct t; apply IR_keep; reflexivity.
  - apply ir_rc, ir_start_ackn.
  - apply ir_rc, ir_end_ackn.
  - apply ir_rc, ir_termination.
  - apply ir_rc, ir_version_answer.
  - apply ir_rc, ir_info_answer.
  - apply xpres_bind; [exact IR_closed|apply ir_upload|intros [|]; ir2].
  - apply ir_rc, ir_ul_end.
  - ir2.
Qed.
Lemma ir_hrun size t p : xpres IR (hrun size t p).
Proof.
  induction p as [rc e z|c k IH]; cbn [hrun]; [ir2|]. apply xpres_bind; [exact IR_closed|apply ir_acall|exact IH].
Qed.
Lemma ir_call size k t p : xpres IR (call_handler size k t p).
Proof.
  intros s a s' o H. unfold call_handler in H. rewrite xbind_get in H. destruct (nth (hidx k) (x_hand s) None) as [h|] eqn:E.
  - rewrite xbind_observe in H. destruct (hrun size t p s) as [[[b s2] os]|] eqn:ER; [|discriminate]. injection H as <- <- <-.
    apply ir_hrun in ER as [[A B] C]. split; [|exact C]. split; [exact A|]. intros k' h' c' [I|I]; [injection I as E1 E2 E3; subst k' h'; exact E|eauto].
  - injection H as <- <- <-. apply IR_closed.
Qed.
Ltac ir3 := repeat (simple apply ir_send || simple apply ir_termination || simple apply ir_call || simple apply ir_end_ackn || simple apply ir_start_ackn || simple apply ir_version_answer || simple apply ir_info_answer || ir1).
Lemma ir_version_pre size nr p : xpres IR (version_pre size nr p). Proof. unfold version_pre. ir3. Qed.
Lemma ir_data size nr d : xpres IR (dload_data size nr d).
Proof.
  intros s a s' o H. unfold dload_data in H. rewrite xbind_get in H. destruct (xb_add_loop size (x_buf s) _) as [[b rc]|] eqn:E; [|discriminate].
  rewrite xbind_mod in H. apply addloop_len in E. assert (I : IR (set_xbuf s b) s' o).
  { revert H. generalize (set_xbuf s b). intros s0 H. revert H. match goal with |- ?m s0 = _ -> _ => enough (xpres IR m) as P by (intro H; exact (P _ _ _ _ H)) end. ir3. }
  destruct I as [[A B] C]. split; [split; [exact A|exact B]|]. unfold BR in *. cbn in C. congruence.
Qed.
Lemma ir_block_end size nr d p : xpres IR (block_end size nr d p).
Proof.
  unfold block_end. apply xpres_bind; [exact IR_closed|ir3|intro s]. destruct (_ =? _); [|ir3].
  apply xpres_bind; [exact IR_closed|ir3|intro]. apply xpres_bind; [exact IR_closed|ir3|intro s1].
  apply xpres_bind; [exact IR_closed| |intro].
  - destruct (0 <? _); [|ir3]. apply xpres_bind; [exact IR_closed| |intro; ir3]. apply xpres_mod. intro s2. split; [split; [reflexivity|intros k h c []]|].
    unfold BR. cbn. unfold xb_remove. destruct (_ <? _)%nat; reflexivity.
  - unfold block_ackn. ir3.
Qed.
Lemma ir_start_request1 d : xpres IR (start_request1 d). Proof. unfold start_request1. ir3. Qed.
Lemma ir_rx size tab silent nr d p : xpres IR (async_rx size tab silent nr d p).
Proof.
  unfold async_rx. destruct (nr_valid tab silent nr) as [[pos st] found].
  repeat (match goal with |- xpres IR (if ?c then _ else _) => destruct c end);
  unfold version_short, version_long1, version_long2, start_request2, dload_end, info_short, ul_request1, ul_request2, ul_block_ackn;
  repeat (simple apply ir_version_pre || simple apply ir_data || simple apply ir_block_end || simple apply ir_start_request1 || ir3).
Qed.
Lemma ir_step size o : (forall k h, o <> LReg k h) -> xpres IR (xl_step size o).
Proof.
  intro NR. destruct o; cbn [xl_step].
  - apply ir_rx.
  - apply xpres_bind; [exact IR_closed|apply ir_acall|intro; ir3].
  - unfold dload_start. ir3.
  - exfalso. eapply NR. reflexivity.
Qed.

(** ** C45: registrations *)
Lemma hidx_lt k : (hidx k < 14)%nat. Proof. destruct k; cbn; lia. Qed.
Lemma kind_idx {A} (k k' : hkind) (x y : A) : (if same_kind k k' then x else y) = if (hidx k =? hidx k')%nat then x else y.
Proof. destruct (same_kind k k') as [->|N]; [rewrite Nat.eqb_refl; reflexivity|]. destruct (Nat.eqb_spec (hidx k) (hidx k')) as [E|]; [|reflexivity]. exfalso. apply N. destruct k, k'; try reflexivity; discriminate E. Qed.
Lemma first_reg_app k a : forall b, first_reg k (a ++ b) = match first_reg k a with Some h => Some h | None => first_reg k b end.
Proof. induction a as [|o r IH]; intro b; cbn [first_reg app]; auto. destruct o as [| | |k' [h|]]; auto. destruct (same_kind _ _); auto. Qed.
Lemma xl_run_app size a : forall b s, xl_run size (a ++ b) s = match xl_run size a s with
  | Some (e1, s1, o1) => match xl_run size b s1 with Some (e2, s2, o2) => Some (e1 ++ e2, s2, o1 ++ o2) | None => None end | None => None end.
Proof.
  induction a as [|o r IH]; intros b s; cbn [xl_run app].
  - unfold xret. destruct (xl_run size b s) as [[[e2 s2] o2]|]; reflexivity.
  - unfold xbind at 1 3. destruct (xl_step size o s) as [[[e s1] o1]|]; [|reflexivity]. unfold xbind. rewrite IH.
    destruct (xl_run size r s1) as [[[e1 s2] o2]|]; [|reflexivity]. cbn.
    destruct (xl_run size b s2) as [[[e2 s3] o3]|]; [|reflexivity]. cbn. rewrite !app_nil_r, app_assoc. reflexivity.
Qed.
Lemma nth_set_nth {A} (d : A) : forall l i j x, (i < length l)%nat -> nth j (set_nth l i x) d = if (j =? i)%nat then x else nth j l d.
Proof. induction l as [|y l IH]; intros [|i] [|j] x H; cbn [length] in H; try lia; cbn [set_nth nth Nat.eqb]; auto. apply IH. lia. Qed.

Definition regs_inv (ops : list xlop) (s : xst) (obs : list xobs) : Prop :=
  length (x_hand s) = 14%nat /\ (forall k, nth (hidx k) (x_hand s) None = first_reg k ops) /\
  (forall k h c, In (XCalled k h c) obs -> first_reg k ops = Some h).
Lemma regs_step size ops s obs o e s' ob : regs_inv ops s obs -> xl_step size o s = Some (e, s', ob) ->
  regs_inv (ops ++ [o]) s' (obs ++ ob) /\ (forall k h, o = LReg k h -> e = reg_result ops k).
Proof.
  intros (L & F & C) H.
  assert (M : forall k h, first_reg k ops = Some h -> first_reg k (ops ++ [o]) = Some h) by (intros k h E; rewrite first_reg_app, E; reflexivity).
  destruct o as [tab sil nr d p|c|c dl p|k h].
  1-3: (assert (NR : forall o, (match o with LReg _ _ => False | _ => True end) -> forall k h, o <> LReg k h) by (intros [] HH; cbn in HH; try tauto; congruence));
    (apply ir_step in H; [|apply NR; exact I]); destruct H as [[A B] D]; split; [|intros ? ? HH; discriminate];
    (split; [congruence|]); (split; [intro k; rewrite A, F, first_reg_app; cbn [first_reg]; destruct (first_reg k ops); reflexivity|]);
    intros k h c' I; apply in_app_or in I as [I|I]; [apply M; eauto|]; apply M; rewrite <- F; eauto.
  cbn [xl_step] in H. unfold register in H. rewrite xbind_get in H. pose proof (hidx_lt k) as HL. rewrite F in H. unfold reg_result.
  destruct (first_reg k ops) as [h0|] eqn:E0.
  - injection H as <- <- <-. rewrite app_nil_r. split.
    + split; [exact L|]. split; [|intros; apply M; eauto]. intro k'. rewrite F, first_reg_app. destruct (first_reg k' ops) eqn:E; [reflexivity|].
      cbn [first_reg]. destruct h as [h|]; [|reflexivity]. rewrite kind_idx. destruct (hidx k' =? hidx k)%nat eqn:EK; [|reflexivity].
      apply Nat.eqb_eq in EK. rewrite <- F, EK, F, E0 in E. discriminate.
    + intros k1 h1 HH. injection HH as <- <-. rewrite E0. reflexivity.
  - rewrite xbind_mod in H. injection H as <- <- <-. rewrite app_nil_r. split.
    + cbn [x_hand set_hand]. split; [cbn; rewrite set_nth_length; exact L|]. split; [|intros; apply M; eauto]. intro k'. cbn [x_hand set_hand]. rewrite nth_set_nth by lia.
      rewrite first_reg_app. cbn [first_reg]. destruct (hidx k' =? hidx k)%nat eqn:EK.
      * assert (E1 : first_reg k' ops = None) by (apply Nat.eqb_eq in EK; rewrite <- F, EK, F; exact E0). rewrite E1. destruct h; [rewrite kind_idx, EK|]; reflexivity.
      * rewrite F. destruct (first_reg k' ops); [reflexivity|]. destruct h; [rewrite kind_idx, EK|]; reflexivity.
    + intros k1 h1 HH. injection HH as <- <-. rewrite E0. reflexivity.
Qed.
Lemma regs_run size : forall ops es s obs, xl_run size ops (xst_zero size) = Some (es, s, obs) ->
  regs_inv ops s obs /\ (forall i k h, nth_error ops i = Some (LReg k h) -> nth_error es i = Some (reg_result (firstn i ops) k)).
Proof.
  induction ops as [|o ops IH] using rev_ind; intros es s obs H.
  - injection H as <- <- <-. split; [|intros [|i] k h HH; discriminate]. split; [reflexivity|]. split; [intro k; cbn; pose proof (hidx_lt k); destruct k; reflexivity|intros k h c []].
  - rewrite xl_run_app in H. destruct (xl_run size ops (xst_zero size)) as [[[e1 s1] o1]|] eqn:E; [|discriminate].
    destruct (IH _ _ _ eq_refl) as (I & R). cbn [xl_run] in H.
    destruct (xl_step size o s1) as [[[e s2] ob]|] eqn:ES; [|unfold xbind at 1 in H; rewrite ES in H; discriminate].
    rewrite (xbind_some _ _ _ _ _ _ ES) in H. rewrite xbind_ret in H. injection H as <- <- <-. rewrite app_nil_r.
    destruct (regs_step size ops s1 o1 o e s2 ob I ES) as [I2 R2]. split; [exact I2|].
    assert (LE : length e1 = length ops).
    { clear -E. revert e1 s1 o1 E. generalize (xst_zero size). induction ops as [|x r IH]; intros s0 e1 s1 o1 E; cbn in E; [injection E as <- _ _; reflexivity|].
      apply xbind_inv in E as (a & s' & p1 & p2 & _ & E2 & _). apply xbind_inv in E2 as (b & s'' & p3 & p4 & E3 & E4 & _). injection E4 as <- _ _. cbn. f_equal. eauto. }
    intros i k h HN. destruct (Nat.lt_ge_cases i (length ops)) as [Hi|Hi].
    + rewrite nth_error_app1 in HN by lia. rewrite nth_error_app1 by lia. rewrite firstn_app. replace (i - length ops)%nat with 0%nat by lia. cbn [firstn]. rewrite app_nil_r. eauto.
    + assert (i = length ops).
      { assert (i < length (ops ++ [o]))%nat by (apply nth_error_Some; congruence). rewrite app_length in H. cbn in H. lia. }
      subst i. rewrite nth_error_app2, Nat.sub_diag in HN by lia. cbn in HN. injection HN as ->.
      rewrite nth_error_app2 by lia. rewrite LE, Nat.sub_diag. cbn. rewrite (R2 k h eq_refl). rewrite firstn_app, firstn_all, Nat.sub_diag. cbn. rewrite app_nil_r. reflexivity.
Qed.
