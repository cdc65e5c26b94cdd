(** Proofs about reports of errors with interrupts. *)
From Verif Require Import Words WordsFacts ErrModel ErrSpec ErrProofs ErrIrqModel ErrIrqSpec.

Lemma eq_run_app size q a b : eq_run size q (a ++ b) =
  match eq_run size q a with Some (q1, o1) => match eq_run size q1 b with Some (q2, o2) => Some (q2, o1 ++ o2) | None => None end | None => None end.
Proof.
  revert q. induction a as [|o a IH]; intro q; cbn [app eq_run]; [destruct (eq_run size q b) as [[? ?]|]; reflexivity|].
  destruct (eq_step size q o) as [[q1 out]|]; [|reflexivity]. rewrite IH. destruct (eq_run size q1 a) as [[q2 o2]|]; [|reflexivity].
  destruct (eq_run size q2 b) as [[q3 o3]|]; reflexivity.
Qed.
Lemma step_ready size q o q' out : eq_step size q o = Some (q', out) -> q_ready q = true -> q_ready q' = true.
Proof.
  intros H R. destruct o; cbn [eq_step] in H.
  - unfold eq_send_full in H. rewrite R in H. cbv zeta in H. destruct (prio =? LVL_FATAL); [injection H as <- <-; exact R|].
    destruct (size <? q_count q + 2)%nat; [injection H as <- <-; exact R|]. destruct (upd _ _ _); [|discriminate]. destruct (size =? q_count q + 2)%nat; [destruct (upd _ _ _); [|discriminate]|]; injection H as <- <-; reflexivity.
  - unfold eq_get_full in H. rewrite R in H. cbn [negb] in H. destruct (q_count q =? 0)%nat; [injection H as <- <-; exact R|]. destruct (nth_error _ _); [|discriminate]. injection H as <- <-. reflexivity.
  - injection H as <- <-. exact R.
Qed.
Lemma run_ready size ops : forall q q' outs, eq_run size q ops = Some (q', outs) -> q_ready q = true -> q_ready q' = true.
Proof.
  induction ops as [|o ops IH]; intros q q' outs H R; cbn [eq_run] in H; [injection H as <- <-; exact R|].
  destruct (eq_step size q o) as [[q1 out]|] eqn:E; [|discriminate]. destruct (eq_run size q1 ops) as [[q2 o2]|] eqn:E2; [|discriminate]. injection H as <- <-. eapply IH; eauto. eapply step_ready; eauto.
Qed.
Section Exec.
Variables (size : nat) (c : ecall).
Lemma exec_step irq k a r l q : exec size c irq k (a :: r) l q =
  match eq_run size q (irq k) with None => None | Some (q1, o) => match access size c a l q1 with None => None | Some (l2, q2) => match exec size c irq (S k) r l2 q2 with Some (q3, o3) => Some (q3, o ++ o3) | None => None end end end.
Proof. reflexivity. Qed.
Lemma exec_quiet irq k a r l q : irq k = [] -> exec size c irq k (a :: r) l q = match access size c a l q with None => None | Some (l2, q2) => exec size c irq (S k) r l2 q2 end.
Proof. intro H. rewrite exec_step, H. cbn [eq_run]. destruct (access size c a l q) as [[l2 q2]|]; [|reflexivity]. destruct (exec _ _ _ _ _ _ _) as [[? ?]|]; reflexivity. Qed.
(** accesses that do nothing *)
Lemma exec_idle irq prog l : forall k q, (forall a q, In a prog -> access size c a l q = Some (l, q)) ->
  exec size c irq k prog l q = match eq_run size q (flat_map irq (seq k (length prog))) with
    | Some (q1, o1) => match eq_run size q1 (irq (k + length prog)%nat) with Some (q2, o2) => Some (q2, o1 ++ OSend (result c l) :: o2) | None => None end | None => None end.
Proof.
  induction prog as [|a prog IH]; intros k q H.
  - cbn [length seq flat_map eq_run exec]. rewrite Nat.add_0_r. destruct (eq_run size q (irq k)) as [[? ?]|]; reflexivity.
  - rewrite exec_step. cbn [length seq flat_map]. rewrite eq_run_app. destruct (eq_run size q (irq k)) as [[q1 o1]|]; [|reflexivity]. rewrite H by (left; reflexivity). rewrite IH by (intros; apply H; right; assumption).
    rewrite Nat.add_succ_r, Nat.add_succ_l. destruct (eq_run size q1 (flat_map irq (seq (S k) (length prog)))) as [[q2 o2]|]; [|reflexivity].
    destruct (eq_run size q2 (irq (S (k + length prog)))) as [[q3 o3]|]; [|reflexivity]. rewrite app_assoc. reflexivity.
Qed.
Lemma exec_idle_pre irq l rest : forall prog k q, (forall a q, In a prog -> q_ready q = true -> access size c a l q = Some (l, q)) -> q_ready q = true ->
  exec size c irq k (prog ++ rest) l q = match eq_run size q (flat_map irq (seq k (length prog))) with
    | Some (q1, o1) => match exec size c irq (k + length prog) rest l q1 with Some (q2, o2) => Some (q2, o1 ++ o2) | None => None end | None => None end.
Proof.
  induction prog as [|a prog IH]; intros k q H R.
  - cbn [length seq flat_map eq_run app]. rewrite Nat.add_0_r. destruct (exec _ _ _ _ _ _ _) as [[? ?]|]; reflexivity.
  - cbn [app]. rewrite exec_step. cbn [length seq flat_map]. rewrite eq_run_app. destruct (eq_run size q (irq k)) as [[q1 o1]|] eqn:E; [|reflexivity]. pose proof (run_ready _ _ _ _ _ E R) as R1.
    rewrite H by (auto; left; reflexivity). rewrite IH by (auto; intros; apply H; auto; right; assumption).
    rewrite Nat.add_succ_r, Nat.add_succ_l. destruct (eq_run size q1 (flat_map irq (seq (S k) (length prog)))) as [[q2 o2]|]; [|reflexivity].
    destruct (exec size c irq (S (k + length prog)) rest l q2) as [[q3 o3]|]; [|reflexivity]. rewrite app_assoc. reflexivity.
Qed.
Definition prog1 : list macc := [ACheck; AInitSlots; AInitCount; AInitOut; AInitIn; AInitReady].
Definition prog2 : list macc := [AFree; ALimit; ALoad; AStore; ACode; ANr; APrio; AInfo; AGroup; AInLoad; AInStore].
Definition prog3 : list macc := [ALimit2; ALoad2; AStore2; ACode2; ANr2; APrio2; AInfo2; AGroup2; AInLoad2; AInStore2].
Lemma prog_split : send_prog = prog1 ++ prog2 ++ prog3.
Proof. reflexivity. Qed.
Definition readied (q : equeue) : equeue := if q_ready q then q else eq_init size.
(** the first part *)
Lemma part1 irq rest q q1 o1 : safe_call q irq -> eq_run size q (flat_map irq (seq 0 7)) = Some (q1, o1) ->
  exists l, exec size c irq 0 (prog1 ++ AFree :: rest) elocal0 q = match exec size c (fun k => if (k =? 6)%nat then [] else irq k) 6 (AFree :: rest) l (readied q1) with Some (q2, o2) => Some (q2, o1 ++ o2) | None => None end.
Proof.
  intros S H.
  assert (forall rest' l qq, exec size c (fun k => if (k =? 6)%nat then [] else irq k) 7 rest' l qq = exec size c irq 7 rest' l qq) as X.
  { assert (forall rest' k l qq, (7 <= k)%nat -> exec size c (fun k => if (k =? 6)%nat then [] else irq k) k rest' l qq = exec size c irq k rest' l qq) as X; [|intros; apply X; lia].
    induction rest' as [|a r IH]; intros k l qq L; cbn [exec]; (destruct (Nat.eqb_spec k 6); [lia|]); [reflexivity|]. destruct (eq_run size qq (irq k)) as [[q' o']|]; [|reflexivity].
    destruct (access size c a l q') as [[l2 q2]|]; [|reflexivity]. rewrite IH by lia. reflexivity. }
  destruct (q_ready q) eqn:R.
  - exists elocal0. unfold prog1. cbn [app]. rewrite exec_step. change (flat_map irq (seq 0 7)) with (irq 0%nat ++ flat_map irq (seq 1 6)) in H. rewrite eq_run_app in H.
    destruct (eq_run size q (irq 0%nat)) as [[qa oa]|] eqn:Ea; [|discriminate]. pose proof (run_ready _ _ _ _ _ Ea R) as Ra.
    unfold access at 1. rewrite Ra. cbn [negb elocal0 l_room l_lim l_tmp]. change (ELocal false Lt false 0) with elocal0.
    change (AInitSlots :: AInitCount :: AInitOut :: AInitIn :: AInitReady :: AFree :: rest) with ([AInitSlots; AInitCount; AInitOut; AInitIn; AInitReady] ++ AFree :: rest).
    rewrite exec_idle_pre by (auto; intros a q' Hi _; cbn in Hi; intuition subst; reflexivity). cbn [length]. change (1 + 5)%nat with 6%nat. change (flat_map irq (seq 1 6)) with (flat_map irq (seq 1 (5 + 1))) in H. rewrite seq_app, flat_map_app, eq_run_app in H.
    destruct (eq_run size qa (flat_map irq (seq 1 5))) as [[qb ob]|] eqn:Eb; [|discriminate]. cbn [seq flat_map] in H. rewrite app_nil_r in H. change (1 + 5)%nat with 6%nat in H. rewrite exec_step.
    destruct (eq_run size qb (irq 6%nat)) as [[qc oc]|] eqn:Ec; [|discriminate]. injection H as <- <-. pose proof (run_ready _ _ _ _ _ Eb Ra) as Rb. pose proof (run_ready _ _ _ _ _ Ec Rb) as Rc.
    unfold readied. rewrite Rc, exec_quiet by reflexivity. destruct (access size c AFree elocal0 qc) as [[l2 q2]|]; [|reflexivity]. rewrite X.
    destruct (exec size c irq 7 rest l2 q2) as [[q3 o3]|]; [|reflexivity]. rewrite !app_assoc. reflexivity.
  - assert (forall k, (0 < k < 17)%nat -> irq k = []) as Q.
    { intros k Lk. destruct (irq k) as [|e es] eqn:Ek; [reflexivity|]. assert (safe_point (q_ready q) k = true) as F by (apply S; congruence). rewrite R in F. unfold safe_point in F. destruct (Nat.leb_spec 17 k); [lia|]. destruct (Nat.eqb_spec k 0); [lia|discriminate]. }
    assert (flat_map irq (seq 0 7) = irq 0%nat) as F0. { cbn [seq flat_map]. rewrite (Q 1%nat), (Q 2%nat), (Q 3%nat), (Q 4%nat), (Q 5%nat), (Q 6%nat) by lia. cbn [app]. apply app_nil_r. } rewrite F0 in H. clear F0.
    exists (ELocal (negb (q_ready q1)) Lt false 0). unfold prog1. cbn [app]. rewrite exec_step, H. unfold access at 1. cbn [elocal0 l_room l_lim l_tmp].
    assert (exec size c irq 1 (AInitSlots :: AInitCount :: AInitOut :: AInitIn :: AInitReady :: AFree :: rest) (ELocal (negb (q_ready q1)) Lt false 0) q1 =
            exec size c (fun k => if (k =? 6)%nat then [] else irq k) 6 (AFree :: rest) (ELocal (negb (q_ready q1)) Lt false 0) (readied q1)) as ->; [|reflexivity].
    rewrite !exec_quiet by (try reflexivity; apply Q; lia).
    unfold readied. destruct (q_ready q1) eqn:R1; cbn [negb]; do 5 (unfold access at 1; cbn [mem_if l_init]; rewrite ?exec_quiet by (apply Q; lia)).
    + destruct (access size c AFree _ q1) as [[l2 q2]|]; [|reflexivity]. symmetry. apply X.
    + unfold set_slots, set_count, set_out, set_in, set_ready, eq_init. cbn [q_ready q_slots q_in q_out q_count]. destruct (access size c AFree _ _) as [[l2 q2]|]; [|reflexivity]. symmetry. apply X.
Qed.
Lemma upd_upd (A : Type) : forall (s : list A) i x y s', upd s i x = Some s' -> upd s' i y = upd s i y.
Proof.
  induction s as [|h t IH]; intros [|i] x y s' H; cbn [upd] in *; try discriminate; [injection H as <-; reflexivity|].
  destruct (upd t i x) as [t'|] eqn:E; [|discriminate]. injection H as <-. cbn [upd]. rewrite (IH _ _ _ _ E). reflexivity.
Qed.
Lemma field_some f q e0 : nth_error (q_slots q) (q_in q) = Some e0 -> exists s, upd (q_slots q) (q_in q) (f e0) = Some s /\ field f q = Some (set_slots q s).
Proof.
  intro H. unfold field. rewrite H. assert (q_in q < length (q_slots q))%nat as L by (apply nth_error_Some; congruence).
  destruct (upd_some _ _ _ (f e0) L) as [s Hs]. exists s. rewrite Hs. auto.
Qed.
Lemma field_again f q0 e1 s : upd (q_slots q0) (q_in q0) e1 = Some s -> exists s', upd (q_slots q0) (q_in q0) (f e1) = Some s' /\ field f (set_slots q0 s) = Some (set_slots q0 s').
Proof.
  intro H. destruct (field_some f (set_slots q0 s) e1) as (s' & U & F); cbn [set_slots q_slots q_in] in *; [eapply upd_nth_same; eauto|].
  rewrite (upd_upd _ _ _ _ _ _ H) in U. exists s'. split; [exact U|]. rewrite F. reflexivity.
Qed.
(** the second part *)
Lemma part2 irq l q1 q2 : (forall k, (6 <= k < 17)%nat -> irq k = []) ->
  eq_send_full size q1 (ec_code c) (ec_info c) (ec_prio c) (ec_group c) (ec_sub c) (ec_nr c) = Some (q2, ERR_OK) ->
  exists l', exec size c irq 6 (prog2 ++ prog3) l (readied q1) = exec size c irq 17 prog3 l' q2 /\ last c l' = false /\ result c l' = ERR_OK.
Proof.
  intros Q H. unfold eq_send_full in H. change (if q_ready q1 then q1 else eq_init size) with (readied q1) in H. cbv zeta in H.
  assert (q_ready (readied q1) = true) as R. { unfold readied. destruct (q_ready q1) eqn:E; [exact E|reflexivity]. }
  set (q := readied q1) in *. clearbody q. unfold prog2. cbn [app]. rewrite exec_quiet by (apply Q; lia). unfold access at 1.
  destruct (ec_prio c =? LVL_FATAL) eqn:F.
  - assert (fatal c = true) as F' by exact F. injection H as <-. eexists. split; [|split].
    + rewrite !exec_quiet by (apply Q; lia).
      do 10 (unfold access at 1; unfold mem_if, loc_if, stores; rewrite F'; cbn [negb andb]; rewrite ?exec_quiet by (apply Q; lia)). reflexivity.
    + unfold last. rewrite F'. reflexivity.
    + unfold result. rewrite F'. reflexivity.
  - assert (fatal c = false) as F' by exact F.
    destruct (Nat.ltb_spec size (q_count q + 2)) as [L|L]; [discriminate|]. destruct (upd (q_slots q) (q_in q) _) as [s1|] eqn:U; [|discriminate].
    destruct (Nat.eqb_spec size (q_count q + 2)) as [L2|L2]; [destruct (upd s1 _ _); discriminate|]. injection H as <-.
    assert ((size ?= q_count q + 2)%nat = Gt) as G by (apply Nat.compare_gt_iff; lia). rewrite G.
    assert (exists e0, nth_error (q_slots q) (q_in q) = Some e0) as (e0 & E0).
    { destruct (nth_error (q_slots q) (q_in q)) as [e|] eqn:E; [eauto|]. apply nth_error_None in E. rewrite upd_none in U by lia. discriminate. }
    assert ((q_count q <? size)%nat = true) as C by (apply Nat.ltb_lt; lia). rewrite C.
    set (q' := set_count q (S (q_count q))).
    destruct (field_some (f_code (ec_code c)) q' e0 E0) as (a1 & U1 & F1).
    destruct (field_again (f_nr (ec_nr c)) q' _ _ U1) as (a2 & U2 & F2).
    destruct (field_again (f_prio (ec_prio c)) q' _ _ U2) as (a3 & U3 & F3).
    destruct (field_again (f_info (ec_info c)) q' _ _ U3) as (a4 & U4 & F4).
    destruct (field_again (f_group (u8 (ec_sub c + N.shiftl (ec_group c) 4))) q' _ _ U4) as (a5 & U5 & F5).
    assert (a5 = s1) as ->. { unfold f_group, f_info, f_prio, f_nr, f_code in U5. cbn [e_code e_prio e_module e_info e_group] in U5. unfold q' in U5. cbn [set_count q_slots q_in] in U5. congruence. }
    eexists (ELocal _ Gt _ _). split; [|split; [unfold last; rewrite F'; reflexivity|unfold result; rewrite F'; reflexivity]].
    rewrite exec_quiet by (apply Q; lia). unfold access at 1. unfold loc_if, stores, lim, tmp. rewrite F', C. cbn [negb andb l_room l_lim l_init l_tmp].
    rewrite exec_quiet by (apply Q; lia). unfold access at 1. unfold loc_if, stores, lim, tmp. rewrite F'. cbn [negb andb l_room l_lim l_init l_tmp].
    rewrite exec_quiet by (apply Q; lia). unfold access at 1. unfold mem_if, stores. rewrite F'. cbn [negb andb l_room l_lim l_init l_tmp]. fold q'.
    rewrite exec_quiet by (apply Q; lia). unfold access at 1. unfold mem_if, stores. rewrite F'. cbn [negb andb l_room l_lim l_init l_tmp]. rewrite F1.
    rewrite exec_quiet by (apply Q; lia). unfold access at 1. unfold mem_if, stores. rewrite F'. cbn [negb andb l_room l_lim l_init l_tmp]. rewrite F2.
    rewrite exec_quiet by (apply Q; lia). unfold access at 1. unfold mem_if, stores. rewrite F'. cbn [negb andb l_room l_lim l_init l_tmp]. rewrite F3.
    rewrite exec_quiet by (apply Q; lia). unfold access at 1. unfold mem_if, stores. rewrite F'. cbn [negb andb l_room l_lim l_init l_tmp]. rewrite F4.
    rewrite exec_quiet by (apply Q; lia). unfold access at 1. unfold mem_if, stores. rewrite F'. cbn [negb andb l_room l_lim l_init l_tmp]. rewrite F5.
    rewrite exec_quiet by (apply Q; lia). unfold access at 1. unfold loc_if, stores, lim, tmp. rewrite F'. cbn [negb andb l_room l_lim l_init l_tmp].
    rewrite exec_quiet by (apply Q; lia). unfold access at 1. unfold mem_if, stores. rewrite F'. cbn [negb andb l_room l_lim l_init l_tmp].
    unfold q', set_in, set_slots, set_count. cbn [q_ready q_slots q_in q_out q_count]. rewrite R. reflexivity.
Qed.
Lemma got_app a b : got (a ++ b) = got a ++ got b.
Proof. induction a as [|x a IH]; [reflexivity|]. destruct x as [|? [|]|]; cbn [app got]; rewrite ?IH; reflexivity. Qed.
(** one call *)
Theorem call_flat irq q qa oa q2 q3 ob : safe_call q irq -> eq_run size q (flat_map irq (seq 0 17)) = Some (qa, oa) ->
  eq_step size qa (send_of c) = Some (q2, OSend ERR_OK) -> eq_run size q2 (flat_map irq (seq 17 11)) = Some (q3, ob) ->
  exists o', call_irq size c irq q = Some (q3, o') /\ got o' = got (oa ++ OSend ERR_OK :: ob).
Proof.
  intros S Ha Hs Hb.
  assert (forall k, (7 <= k < 17)%nat -> irq k = []) as Q.
  { intros k Lk. destruct (irq k) as [|e es] eqn:Ek; [reflexivity|]. assert (safe_point (q_ready q) k = true) as F by (apply S; congruence). unfold safe_point in F.
    destruct (Nat.leb_spec 17 k); [lia|]. destruct (q_ready q); [destruct (Nat.leb_spec k 6)|destruct (Nat.eqb_spec k 0)]; try lia; discriminate. }
  assert (flat_map irq (seq 0 17) = flat_map irq (seq 0 7)) as F0.
  { change (seq 0 17) with (seq 0 7 ++ seq 7 10). rewrite flat_map_app. replace (flat_map irq (seq 7 10)) with (@nil eop); [apply app_nil_r|].
    cbn [seq flat_map]. rewrite !Q by lia. reflexivity. }
  rewrite F0 in Ha. unfold call_irq. rewrite prog_split. destruct (part1 irq ([ALimit; ALoad; AStore; ACode; ANr; APrio; AInfo; AGroup; AInLoad; AInStore] ++ prog3) q qa oa S Ha) as (l & E).
  change (prog2 ++ prog3) with (AFree :: ([ALimit; ALoad; AStore; ACode; ANr; APrio; AInfo; AGroup; AInLoad; AInStore] ++ prog3)). rewrite E. set (irq' := fun k => if (k =? 6)%nat then [] else irq k) in *.
  cbn [eq_step send_of] in Hs. destruct (eq_send_full size qa _ _ _ _ _ _) as [[q2' e]|] eqn:Es; [|discriminate]. injection Hs as -> ->.
  destruct (part2 irq' l qa q2) as (l' & E2 & Hl & Hr); [|exact Es|].
  { intros k Lk. unfold irq'. destruct (Nat.eqb_spec k 6); [reflexivity|]. apply Q. lia. }
  change (prog2 ++ prog3) with (AFree :: ([ALimit; ALoad; AStore; ACode; ANr; APrio; AInfo; AGroup; AInLoad; AInStore] ++ prog3)) in E2. rewrite E2, exec_idle.
  2: { intros a q' Hi. cbn in Hi. intuition subst; unfold access, loc_if, mem_if; rewrite Hl; reflexivity. }
  cbn [length prog3]. change (flat_map irq' (seq 17 10)) with (flat_map irq (seq 17 10)). change (irq' (17 + 10)%nat) with (irq 27%nat).
  change (seq 17 11) with (seq 17 10 ++ [27%nat]) in Hb. rewrite flat_map_app, eq_run_app in Hb. cbn [flat_map] in Hb. rewrite app_nil_r in Hb.
  destruct (eq_run size q2 (flat_map irq (seq 17 10))) as [[qx ox]|]; [|discriminate]. destruct (eq_run size qx (irq 27%nat)) as [[qy oy]|]; [|discriminate]. injection Hb as <- <-.
  eexists. split; [reflexivity|]. rewrite Hr. rewrite !got_app. cbn [got]. rewrite !got_app. reflexivity.
Qed.
(** without interrupts the call is the call *)
Theorem call_alone q q2 : eq_step size q (send_of c) = Some (q2, OSend ERR_OK) -> exists o', call_irq size c (fun _ => []) q = Some (q2, o') /\ got o' = [].
Proof. intro H. apply (call_flat (fun _ => []) q q [] q2 q2 []); auto. intros k Hk. destruct (Hk eq_refl). Qed.
End Exec.

Lemma fifo_sends st ops e : In (OSend e) (snd (fifo_run st ops)) -> e = ERR_OK.
Proof.
  revert st. induction ops as [|o ops IH]; intros st H; cbn [fifo_run] in H; [destruct H|].
  destruct (fifo_step st o) as [s1 out] eqn:E. destruct (fifo_run s1 ops) as [s2 outs] eqn:E2. cbn [snd] in H. destruct H as [H|H]; [|apply (IH s1); rewrite E2; exact H].
  subst out. destruct st as [b l]. destruct o; cbn [fifo_step] in E; [destruct (is_fatal prio); congruence| |discriminate]. destruct (negb b); [discriminate|]. destruct l; discriminate.
Qed.
Theorem irun_flat size : forall h q q' outs, safe_hist size q h -> (forall e, In (OSend e) outs -> e = ERR_OK) -> eq_run size q (flat h) = Some (q', outs) ->
  exists o', irun size q h = Some (q', o') /\ got o' = got outs.
Proof.
  induction h as [|[c irq] h IH]; intros q q' outs S O H; cbn [irun].
  - injection H as <- <-. eexists. split; reflexivity.
  - destruct S as [S1 S2]. unfold flat in H. cbn [flat_map fst snd] in H. fold (flat h) in H. unfold flat_call in H. rewrite <- app_assoc in H. rewrite eq_run_app in H.
    destruct (eq_run size q (flat_map irq (seq 0 17))) as [[qa oa]|] eqn:Ea; [|discriminate].
    change ((send_of c :: flat_map irq (seq 17 11)) ++ flat h) with (send_of c :: (flat_map irq (seq 17 11) ++ flat h)) in H. cbn [eq_run] in H.
    destruct (eq_step size qa (send_of c)) as [[q2 out]|] eqn:Es; [|discriminate]. rewrite eq_run_app in H.
    destruct (eq_run size q2 (flat_map irq (seq 17 11))) as [[q3 ob]|] eqn:Eb; [|discriminate]. destruct (eq_run size q3 (flat h)) as [[q4 oc]|] eqn:Ec; [|discriminate]. injection H as <- <-.
    assert (out = OSend ERR_OK) as ->. { cbn [eq_step send_of] in Es. destruct (eq_send_full size qa _ _ _ _ _ _) as [[? e]|]; [|discriminate]. injection Es as <- <-. f_equal. apply O. apply in_or_app. right. left. reflexivity. }
    destruct (call_flat size c irq q qa oa q2 q3 ob S1 Ea Es Eb) as (o1 & E1 & G1). rewrite E1.
    destruct (IH q3 q4 oc (S2 _ _ E1)) as (o2 & E2 & G2); [|exact Ec|].
    { intros e He. apply O. apply in_or_app. right. right. apply in_or_app. right. exact He. }
    rewrite E2. eexists. split; [reflexivity|]. rewrite got_app, G1, G2, !got_app. cbn [got]. rewrite !got_app, <- app_assoc. reflexivity.
Qed.
