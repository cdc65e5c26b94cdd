(** C56: main and monitor disagreement invalidates the image. *)
From Verif Require Import Words NodeModel MonModel MonSpec MonProofs.
From Coq Require Import Lia.

(** At every event of every history from the start: verdicts are given exactly at the request that ends a regular cycle, one
    for each module in the order of the table, and the verdict of a module is "valid" iff the controllers agree on it.

    Partial: fewer than 65536 events in the cycle, conversions that write all configured bytes, an application that does not
    write its receive objects; and the property itself does not mention that a cycle without exactly one request on each
    controller gets no verdict at all (C56_refuted). *)
Theorem C56_verdicts_partial : forall c apprx app cap monrx h s o e s' o',
  mrun c h (mon0 apprx app cap monrx) = Some (s, o) -> mstep c e s = Some (s', o') ->
  let w := cycle (annotate app cap h) in
  full c -> Forall (fun x => frame_ok (fst x) /\ no_apprx (fst x)) w -> N.of_nat (length w) < 65536 ->
  (forall pos v, In (pos, v) (mverdicts o') <->
     is_req e = true /\ regular w /\ exists m, nth_error c pos = Some m /\ (v = true <-> agree w pos m)) /\
  (mverdicts o' <> [] -> map fst (mverdicts o') = seq 0 (length c)).
Proof.
  intros c apprx app cap monrx h s o e s' o' Hr Hs w F G L.
  pose proof (inv_run c h app cap [] _ _ _ (inv0 c apprx app cap monrx) Hr) as I. fold (cycle (annotate app cap h)) in I. fold w in I.
  assert (G' : good w) by (split; eapply Forall_impl; try exact G; cbn; tauto).
  destruct (is_req e) eqn:R.
  2:{ rewrite (step_other c _ _ _ _ R Hs). cbn. split; [|intro K; exfalso; apply K; reflexivity].
      intros. split; [intros []|intros [K _]; discriminate]. }
  destruct (step_req c _ _ _ _ R Hs) as [V _]. rewrite V.
  pose proof (speaks_iff c _ _ _ _ I L) as S. destruct (speaks s) eqn:Es.
  - destruct (check_loud c s (when e) Es) as (V1 & _). rewrite V1. split.
    + intros pos v. rewrite in_map_iff. split.
      * intros (i & E & Hi). injection E as -> <-. apply in_seq in Hi. split; [reflexivity|]. split; [apply S; reflexivity|].
        destruct (nth_error c pos) as [m|] eqn:Hp; [|apply nth_error_None in Hp; lia].
        exists m. split; [reflexivity|]. rewrite (nth_error_nth _ _ _ Hp). apply (check_module_iff c _ _ _ _ _ _ I F G' L Hp).
      * intros (_ & _ & m & Hp & Hv). exists pos. assert (Lp : (pos < length c)%nat) by (apply nth_error_Some; congruence).
        split; [|apply in_seq; lia]. f_equal. rewrite (nth_error_nth _ _ _ Hp).
        pose proof (check_module_iff c _ _ _ _ _ _ I F G' L Hp) as K.
        destruct (check_module pos m s), v; try reflexivity; destruct K, Hv; [|]; try (exfalso; auto; fail).
        -- assert (false = true) by auto. discriminate.
        -- assert (false = true) by auto. discriminate.
    + intros _. rewrite map_map. cbn. apply map_id.
  - rewrite (check_quiet c s _ Es). cbn. split; [|intro K; exfalso; apply K; reflexivity].
    intros. split; [intros []|]. intros (_ & K & _). apply S in K. discriminate.
Qed.
Print Assumptions C56_verdicts_partial.

(** The hook of the whole image runs iff a request ends a regular cycle in which the controllers agree on every module. *)
Theorem C56_image_partial : forall c apprx app cap monrx h s o e s' o',
  mrun c h (mon0 apprx app cap monrx) = Some (s, o) -> mstep c e s = Some (s', o') ->
  let w := cycle (annotate app cap h) in
  full c -> Forall (fun x => frame_ok (fst x) /\ no_apprx (fst x)) w -> N.of_nat (length w) < 65536 ->
  (count is_image o' <= 1)%nat /\
  (count is_image o' = 1%nat <-> is_req e = true /\ regular w /\ forall pos m, nth_error c pos = Some m -> agree w pos m).
Proof.
  intros c apprx app cap monrx h s o e s' o' Hr Hs w F G L.
  pose proof (inv_run c h app cap [] _ _ _ (inv0 c apprx app cap monrx) Hr) as I. fold (cycle (annotate app cap h)) in I. fold w in I.
  assert (G' : good w) by (split; eapply Forall_impl; try exact G; cbn; tauto).
  destruct (is_req e) eqn:R.
  2:{ rewrite (step_other c _ _ _ _ R Hs). cbn. split; [lia|]. split; [discriminate|intros [K _]; discriminate]. }
  destruct (step_req c _ _ _ _ R Hs) as [_ V]. rewrite V.
  pose proof (speaks_iff c _ _ _ _ I L) as S. destruct (speaks s) eqn:Es.
  - destruct (check_loud c s (when e) Es) as (_ & V1 & V2). split; [exact V2|]. rewrite V1. split.
    + intro K. split; [reflexivity|]. split; [apply S; reflexivity|]. intros pos m Hp.
      apply (check_module_iff c _ _ _ _ _ _ I F G' L Hp). apply K. exact Hp.
    + intros (_ & _ & K) i m Hp. apply (check_module_iff c _ _ _ _ _ _ I F G' L Hp). apply K. exact Hp.
  - rewrite (check_quiet c s _ Es). cbn. split; [lia|]. split; [discriminate|]. intros (_ & K & _). apply S in K. discriminate.
Qed.
Print Assumptions C56_image_partial.

(** ** the bytes that were sent *)
Lemma annotate_app : forall h1 h2 app cap,
  annotate app cap (h1 ++ h2) = annotate app cap h1 ++ annotate (fst (mem_after h1 app cap)) (snd (mem_after h1 app cap)) h2.
Proof.
  induction h1 as [|e h1 IH]; intros h2 app cap; [reflexivity|].
  rewrite <- app_comm_cons, !annotate_cons, IH. reflexivity.
Qed.
Lemma cap_kept : forall h app cap, Forall (fun e => is_main_req e = false) h -> snd (mem_after h app cap) = cap.
Proof.
  induction h as [|e h IH]; intros app cap H; [reflexivity|]. inversion H; subst. cbn. rewrite IH by assumption.
  destruct e; cbn in *; congruence.
Qed.
Lemma app_len : forall h app cap, (forall p q, length (app p q) = 8%nat) -> Forall app_ok h -> forall p q, length (fst (mem_after h app cap) p q) = 8%nat.
Proof.
  induction h as [|e h IH]; intros app cap A H p q; [apply A|]. inversion H; subst. cbn. apply IH; [|assumption].
  intros p0 q0. destruct e; cbn; try apply A. rewrite setc_if. destruct ((p0 =? pos) && (q0 =? obj))%nat; [assumption|apply A].
Qed.
Lemma sent_objs : forall l pos nr o s s' f i t d, send_objs pos nr o l s = (s', f) -> nth_error l i = Some t ->
  (In (OSent pos (o + i) (1024 + 4 * (nr - 1) + N.of_nat (o + i)) (to_dlc t) d) f <-> to_main t (b_apptx s pos (o + i)%nat) (to_dlc t) = Some d) /\
  (forall p' o' id dlc d', In (OSent p' o' id dlc d') f -> p' = pos /\ (o <= o')%nat).
Proof.
  induction l as [|t0 l IH]; intros pos nr o s s' f i t d H Hi; [destruct i; discriminate|].
  cbn [send_objs] in H. destruct (send_objs pos nr (S o) l _) as [s2 f2] eqn:E2. injection H as <- <-.
  assert (B : forall p' o' id dlc d', In (OSent p' o' id dlc d') f2 -> p' = pos /\ (S o <= o')%nat).
  { destruct l as [|t1 l1].
    - cbn in E2. injection E2 as <- <-. intros. destruct H.
    - eapply (IH pos nr (S o) _ _ _ 0%nat t1 d); [exact E2|reflexivity]. }
  split.
  - destruct i as [|i]; cbn in Hi.
    + injection Hi as <-. rewrite Nat.add_0_r. rewrite in_app_iff. split.
      * intros [H|H].
        -- destruct (to_main t0 _ _) as [d0|]; [|destruct H]. destruct H as [H|[]]. injection H as <-. reflexivity.
        -- apply B in H. lia.
      * intro H. left. rewrite H. left. reflexivity.
    + replace (o + S i)%nat with (S o + i)%nat by lia.
      specialize (IH pos nr (S o) _ _ _ i t d E2 Hi). destruct IH as [IH _]. rewrite in_app_iff. cbn [b_apptx w_cap] in IH. rewrite <- IH.
      split; [intros [H|H]|auto]; [|exact H]. destruct (to_main t0 _ _) as [d0|]; [|destruct H]. destruct H as [H|[]]. injection H as E. lia.
  - intros p' o' id dlc d' H. apply in_app_or in H. destruct H as [H|H].
    + destruct (to_main t0 _ _) as [d0|]; [|destruct H]. destruct H as [H|[]]. injection H as <- <- <- <- <-. split; [reflexivity|lia].
    + apply B in H. lia.
Qed.
Lemma send_objs_mem : forall l pos nr o s s' f, send_objs pos nr o l s = (s', f) -> b_apptx s' = b_apptx s.
Proof.
  induction l as [|t0 l IH]; intros pos nr o s s' f H; cbn [send_objs] in H; [injection H as <- _; reflexivity|].
  destruct (send_objs pos nr (S o) l _) as [s2 f2] eqn:E2. injection H as <- _. apply IH in E2. exact E2.
Qed.
Lemma sent_all : forall l pos s s' f i m o t d, send_all pos l s = (s', f) -> nth_error l i = Some m -> nth_error (mm_tx m) o = Some t ->
  (In (OSent (pos + i) o (1024 + 4 * (mm_nr m - 1) + N.of_nat o) (to_dlc t) d) f <-> to_main t (b_apptx s (pos + i)%nat o) (to_dlc t) = Some d) /\
  (forall p' o' id dlc d', In (OSent p' o' id dlc d') f -> (pos <= p')%nat).
Proof.
  assert (B : forall l pos s s' f, send_all pos l s = (s', f) -> forall p' o' id dlc d', In (OSent p' o' id dlc d') f -> (pos <= p')%nat).
  { induction l as [|m0 l IH]; intros pos s s' f H p' o' id dlc d' Hin; cbn [send_all] in H; [injection H as <- <-; destruct Hin|].
    destruct (send_objs pos (mm_nr m0) 0 (mm_tx m0) s) as [s1 f1] eqn:E1. destruct (send_all (S pos) l s1) as [s2 f2] eqn:E2. injection H as <- <-.
    apply in_app_or in Hin. destruct Hin as [Hin|Hin].
    - destruct (mm_tx m0) as [|t1 l1] eqn:Et; [cbn in E1; injection E1 as <- <-; destruct Hin|].
      apply (proj2 (sent_objs _ _ _ _ _ _ _ 0%nat t1 d' E1 eq_refl)) in Hin. lia.
    - eapply IH in Hin; [|exact E2]. lia. }
  induction l as [|m0 l IH]; intros pos s s' f i m o t d H Hi Ho; [destruct i; discriminate|].
  split; [|eapply B; exact H].
  cbn [send_all] in H. destruct (send_objs pos (mm_nr m0) 0 (mm_tx m0) s) as [s1 f1] eqn:E1. destruct (send_all (S pos) l s1) as [s2 f2] eqn:E2. injection H as <- <-.
  rewrite in_app_iff. destruct i as [|i]; cbn in Hi.
  - injection Hi as <-. rewrite Nat.add_0_r. pose proof (proj1 (sent_objs _ _ _ _ _ _ _ o t d E1 Ho)) as K. cbn [Nat.add] in K. rewrite K.
    split; [intros [A|A]|auto]; [exact A|]. eapply B in A; [|exact E2]. lia.
  - replace (pos + S i)%nat with (S pos + i)%nat by lia.
    specialize (IH (S pos) _ _ _ i m o t d E2 Hi Ho). destruct IH as [IH _]. rewrite IH. rewrite (send_objs_mem _ _ _ _ _ _ _ E1).
    split; [intros [A|A]|auto]; [|exact A]. exfalso.
    destruct (mm_tx m0) as [|t1 l1] eqn:Et; [cbn in E1; injection E1 as <- <-; destruct A|].
    apply (proj2 (sent_objs _ _ _ _ _ _ _ 0%nat t1 d E1 eq_refl)) in A. lia.
Qed.

Lemma check_no_sent : forall c now s p o id dlc d, ~ In (OSent p o id dlc d) (snd (check_image c now s)).
Proof.
  assert (Q : forall l pos s now o all, check_modules pos l s now = (o, all) -> forall p q id dlc d, ~ In (OSent p q id dlc d) o).
  { induction l as [|m l IH]; intros pos s now o all H p q id dlc d K; cbn [check_modules] in H; [injection H as <- <-; destruct K|].
    destruct (check_modules (S pos) l s now) as [o1 a1] eqn:E. injection H as <- <-. destruct K as [K|K]; [discriminate|]. eapply IH; eassumption. }
  intros c now s p o id dlc d. unfold check_image. destruct (b_mflag s && b_nflag s); [|auto].
  destruct (1 <? b_mdlc s); [auto|]. destruct (1 <? b_ndlc s); [auto|]. destruct (negb (b_mcnt s =? 1)); [auto|]. destruct (negb (b_ncnt s =? 1)); [auto|].
  destruct (check_modules 0 c s now) as [o1 all] eqn:E. cbn. intro K. apply in_app_or in K. destruct K as [K|K]; [eapply Q; eassumption|].
  destruct all; [destruct K as [K|[]]; discriminate|destruct K].
Qed.

(** A frame of the node seen by the monitor counts as a copy of what was sent iff it has the bytes of the frame that the main
    controller was given for that object at the last process request.  Partial: conversions of the transmit object that are
    inverse to each other. *)
Theorem C56_sent_bytes_partial : forall c apprx app cap monrx h1 dlc0 now h2 x s o s1 o1 pos m obj t,
  mrun c h1 (mon0 apprx app cap monrx) = Some (s, o) -> mstep c (MainReq dlc0 now) s = Some (s1, o1) ->
  (forall p q, length (app p q) = 8%nat) -> Forall app_ok h1 -> Forall (fun e => is_main_req e = false) h2 ->
  nth_error c pos = Some m -> nth_error (mm_tx m) obj = Some t -> faithful t ->
  frame_ok x -> (exists id n d junk, x = MonTx pos id n d junk) ->
  (forall y d, length y = 8%nat -> to_main t y (to_dlc t) = Some d -> length d = 8%nat) ->
  exists capx l, annotate app cap (h1 ++ MainReq dlc0 now :: h2 ++ [x]) = l ++ [(x, capx)] /\
    forall d, In (OSent pos obj (1024 + 4 * (mm_nr m - 1) + N.of_nat obj) (to_dlc t) d) o1 ->
      (carries pos obj t (x, capx) = true <-> take (to_dlc t) (data_of (x, capx)) = take (to_dlc t) d).
Proof.
  intros c apprx app cap monrx h1 dlc0 now h2 x s o s1 o1 pos m obj t Hr Hs A0 A1 N2 Hp Ho (F1 & F2 & F3) Fx (id & n & dx & junk & ->) L8.
  set (app1 := fst (mem_after h1 app cap)).
  exists app1, (annotate app cap h1 ++ (MainReq dlc0 now, snd (mem_after h1 app cap)) :: annotate app1 app1 h2). split.
  { rewrite annotate_app, annotate_cons. fold app1. cbn [app_after cap_after].
    rewrite annotate_app, (cap_kept h2) by assumption. rewrite <- app_assoc. reflexivity. }
  intros d Hd. cbn [data_of fst].
  pose proof (inv_run c h1 app cap [] _ _ _ (inv0 c apprx app cap monrx) Hr) as I. fold app1 in I.
  cbn [mstep] in Hs. pose proof (inv_check c _ _ _ _ now I) as I1. destruct (check_image c now s) as [s2 o2] eqn:Ec.
  destruct (send_all 0 c s2) as [s3 o3] eqn:Es. injection Hs as <- <-. cbn [fst] in I1.
  assert (Hd' : In (OSent pos obj (1024 + 4 * (mm_nr m - 1) + N.of_nat obj) (to_dlc t) d) o3).
  { apply in_app_or in Hd. destruct Hd as [Hd|Hd]; [|exact Hd]. exfalso. revert Hd.
    assert (Q : o2 = snd (check_image c now s)) by (rewrite Ec; reflexivity). rewrite Q. apply check_no_sent. }
  pose proof (proj1 (sent_all c 0 _ _ _ pos m obj t d Es Hp Ho)) as K. cbn [Nat.add] in K. apply K in Hd'.
  rewrite (i_app _ _ _ _ _ I1) in Hd'. unfold carries. cbn [data_of fst snd]. cbn in Fx. assert (A8 : length (app1 pos obj) = 8%nat) by (apply app_len; assumption).
  pose proof (L8 _ _ A8 Hd') as Ld. pose proof (F1 _ _ A8 Hd') as E1.
  unfold bytes_eqb. destruct (list_eq_dec N.eq_dec _ _) as [E|E].
  - split; [intros _|reflexivity]. apply F2; congruence.
  - split; [discriminate|]. intro Q. exfalso. apply E. rewrite <- E1. apply F3; assumption.
Qed.
Print Assumptions C56_sent_bytes_partial.

(** ** concrete cases *)
Definition cp : cv := fun d n => firstn (N.to_nat n) d.
Definition cp_main : list byte -> N -> option (list byte) := fun x n => Some (firstn (N.to_nat n) x ++ repeat 0 (8 - N.to_nat n)).
(** module number 5 with one receive object of two bytes and one transmit object of two bytes *)
Definition tab5 : mtab := [MMod 5 [RObj 2 cp cp] [TObj 2 cp_main cp]].
Definition z8 : cells (list byte) := fun _ _ => [0;0;0;0;0;0;0;0].
Definition fr (a b : N) : list byte := [a;b;0;0;0;0;0;0].
(** the frames of one cycle: the master's object on both controllers, the node's own object seen by the monitor *)
Definition frames (a b x y : N) : list mev :=
  [MainData 0 528 2 (fr a b); MonData 0 528 2 (fr a b); MonTx 0 1040 2 (fr x y) []].
Definition verdicts_of (c : mtab) (app : cells (list byte)) (h : list mev) : option (list (nat * bool)) :=
  option_map (fun r => mverdicts (snd r)) (mrun c h (mon0 z8 app z8 z8)).
(** the application's transmit object *)
Definition app2 (x y : N) : cells (list byte) := fun _ _ => fr x y.

Lemma tab5_full : full tab5.
Proof.
  apply Forall_cons; [|apply Forall_nil]. cbn [mm_rx mm_tx]. split; apply Forall_cons; try apply Forall_nil; cbn [ro_main ro_mon ro_dlc to_mon to_dlc].
  - split; intros d L; unfold cp; rewrite firstn_length, L; reflexivity.
  - intros d L; unfold cp; rewrite firstn_length, L; reflexivity.
Qed.
Lemma tab5_faithful : faithful (TObj 2 cp_main cp).
Proof.
  unfold faithful, take, cp, cp_main. cbn [to_dlc to_main to_mon]. change (N.to_nat 2) with 2%nat. split; [|split].
  - intros x d L E. injection E as <-. destruct x as [|a [|b x]]; try discriminate L. reflexivity.
  - intros a b _ _ H. rewrite !firstn_firstn in H. exact H.
  - intros a b _ _ H. rewrite !firstn_firstn. exact H.
Qed.
(** regular cycles: agreement, a byte that differs on the monitor, an object missing on the monitor, an own frame with another
    content, the same in the other order of the two request interrupts *)
Example C56_example_valid : verdicts_of tab5 (app2 7 8) ([MainReq 1 10; MonReq 1 10] ++ frames 1 2 7 8 ++ [MainReq 1 20]) = Some [(0%nat, true)] /\
  verdicts_of tab5 (app2 7 8) ([MonReq 1 10; MainReq 1 10] ++ frames 1 2 7 8 ++ [MonReq 1 20]) = Some [(0%nat, true)].
Proof. split; vm_compute; reflexivity. Qed.
Example C56_example_byte : verdicts_of tab5 (app2 7 8)
  [MainReq 1 10; MonReq 1 10; MainData 0 528 2 (fr 1 2); MonData 0 528 2 (fr 1 3); MonTx 0 1040 2 (fr 7 8) []; MainReq 1 20] = Some [(0%nat, false)].
Proof. vm_compute. reflexivity. Qed.
Example C56_example_missing : verdicts_of tab5 (app2 7 8)
  [MainReq 1 10; MonReq 1 10; MainData 0 528 2 (fr 1 2); MonTx 0 1040 2 (fr 7 8) []; MainReq 1 20] = Some [(0%nat, false)].
Proof. vm_compute. reflexivity. Qed.
Example C56_example_own : verdicts_of tab5 (app2 7 8) ([MainReq 1 10; MonReq 1 10] ++ frames 1 2 7 9 ++ [MainReq 1 20]) = Some [(0%nat, false)].
Proof. vm_compute. reflexivity. Qed.

(** Finding: one process request that the monitor misses costs two cycles.  All frames of the second and third cycle arrive
    once on both controllers with the same bytes and the node's own frame is seen with the bytes that were sent; neither cycle
    gets a verdict, neither callback runs, the last verdict stays. *)
Theorem C56_refuted : forall a b x y,
  let cyc := frames a b x y in
  verdicts_of tab5 (app2 x y)
    ([MainReq 1 10; MonReq 1 10] ++ cyc ++ [MainReq 1 20] ++ cyc ++ [MainReq 1 30; MonReq 1 30] ++ cyc ++ [MainReq 1 40; MonReq 1 40]) =
  Some [(0%nat, true)].
Proof.
  intros a b x y. cbv zeta. unfold verdicts_of, frames, app2.
  cbv -[list_eq_dec N.eq_dec].
  repeat (match goal with |- context [list_eq_dec N.eq_dec ?u ?v] => destruct (list_eq_dec N.eq_dec u v) as [E|E]; [clear E|exfalso; apply E; reflexivity] end;
          cbv -[list_eq_dec N.eq_dec]).
  reflexivity.
Qed.
Print Assumptions C56_refuted.

(** Finding: a second frame with the node's identifier and other bytes, from a foreign node, is not counted; the image stays
    valid although the transmit object was seen twice. *)
Theorem C56_foreign_refuted : exists h w,
  verdicts_of tab5 (app2 7 8) (h ++ [MainReq 1 20]) = Some [(0%nat, true)] /\ w = cycle (annotate (app2 7 8) z8 h) /\
  count (for_tx (MMod 5 [RObj 2 cp cp] [TObj 2 cp_main cp]) 0 0 (TObj 2 cp_main cp)) w = 2%nat.
Proof.
  exists ([MainReq 1 10; MonReq 1 10] ++ frames 1 2 7 8 ++ [MonTx 0 1040 2 (fr 66 66) []]). eexists.
  split; [vm_compute; reflexivity|]. split; [reflexivity|]. vm_compute. reflexivity.
Qed.
Print Assumptions C56_foreign_refuted.

(** Finding: the comparison reads the application's receive object at the next request, not the frame.  An application that
    changes its object during the cycle turns the image invalid although the frames agree. *)
Theorem C56_application_refuted : exists h,
  verdicts_of tab5 (app2 7 8) (h ++ [MainReq 1 20]) = Some [(0%nat, false)] /\
  agree (cycle (annotate (app2 7 8) z8 h)) 0 (MMod 5 [RObj 2 cp cp] [TObj 2 cp_main cp]) /\ regular (cycle (annotate (app2 7 8) z8 h)).
Proof.
  exists ([MainReq 1 10; MonReq 1 10] ++ frames 1 2 7 8 ++ [AppRx 0 0 (fr 0 0)]). split; [vm_compute; reflexivity|]. split.
  - split; intros o q H; destruct o as [|[|o]]; cbn in H; try discriminate; injection H as <-.
    + do 2 eexists. split; [vm_compute; reflexivity|]. split; [vm_compute; reflexivity|]. vm_compute. reflexivity.
    + vm_compute. reflexivity.
  - split; [vm_compute; reflexivity|]. split; [vm_compute; reflexivity|].
    repeat first [apply Forall_nil | apply Forall_cons; [reflexivity|]].
Qed.
Print Assumptions C56_application_refuted.

(** Finding: the buffer for the comparison of an own frame is not initialised.  With a conversion that moves 16-bit words and
    an odd length (io_app_convc.c: half of the DLC, rounded down) its last byte is what was on the stack, and the verdict on
    the same frames depends on it. *)
Definition cp16 : cv := fun d n => firstn (2 * N.to_nat (N.shiftr n 1)) d.
Definition tab_odd : mtab := [MMod 5 [] [TObj 3 cp_main cp16]].
Theorem C56_stack_refuted : exists h, forall j,
  verdicts_of tab_odd (app2 7 8) (h ++ [MonTx 0 1040 3 (fr 7 8) [0;0;j]; MainReq 1 20]) = Some [(0%nat, j =? 0)].
Proof.
  exists [MainReq 1 10; MonReq 1 10]. intro j. replace (j =? 0) with (if N.eq_dec j 0 then true else false) by (destruct (N.eq_dec j 0) as [->|]; [reflexivity|symmetry; apply N.eqb_neq; assumption]).
  cbv -[list_eq_dec N.eq_dec].
  match goal with |- context [list_eq_dec N.eq_dec ?u ?v] => destruct (list_eq_dec N.eq_dec u v) as [E|E] end; cbv -[list_eq_dec N.eq_dec].
  - injection E as <-. reflexivity.
  - destruct (N.eq_dec j 0) as [->|]; [exfalso; apply E; reflexivity|reflexivity].
Qed.
Print Assumptions C56_stack_refuted.

(** the hypotheses of the positive theorems hold in the example *)
Example C56_example_hyps : let h := [MainReq 1 10; MonReq 1 10] ++ frames 1 2 7 8 in let w := cycle (annotate (app2 7 8) z8 h) in
  full tab5 /\ faithful (TObj 2 cp_main cp) /\ Forall (fun x => frame_ok (fst x) /\ no_apprx (fst x)) w /\ N.of_nat (length w) < 65536 /\
  regular w /\ agree w 0 (MMod 5 [RObj 2 cp cp] [TObj 2 cp_main cp]) /\ exists s o, mrun tab5 h (mon0 z8 (app2 7 8) z8 z8) = Some (s, o).
Proof.
  cbv zeta. split; [apply tab5_full|]. split; [apply tab5_faithful|]. split.
  { repeat first [apply Forall_nil | apply Forall_cons; [split; cbn; auto|]]. }
  split; [vm_compute; reflexivity|]. split; [|split].
  - split; [vm_compute; reflexivity|]. split; [vm_compute; reflexivity|].
    repeat first [apply Forall_nil | apply Forall_cons; [reflexivity|]].
  - split; intros o q H; destruct o as [|[|o]]; cbn in H; try discriminate; injection H as <-.
    + do 2 eexists. split; [vm_compute; reflexivity|]. split; [vm_compute; reflexivity|]. vm_compute. reflexivity.
    + vm_compute. reflexivity.
  - do 2 eexists. vm_compute. reflexivity.
Qed.
