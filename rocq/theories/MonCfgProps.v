(** C72: the monitor takes every frame of a completely added module, once, and for this module.  C73: what is false for
    modules that were not added completely. *)
From Verif Require Import Words ErrModel NodeModel NodeSpec NodeMo MonModel MonCfgModel MonCfgSpec MonCfg.

(** C72: a module whose addition went well has a message object for each identifier; the other modules keep theirs *)
Theorem C72_added : forall E s nr nrx ntx rx0 tx0 s',
  menv_ok E -> configured E s -> (nrx <= 4)%nat -> (ntx <= 4)%nat -> length rx0 = 4%nat -> length tx0 = 4%nat ->
  add_mon E nr nrx ntx rx0 tx0 s = Some (ERR_OK, s') ->
  length (c_tab s') = S (length (c_tab s)) /\ set_up s' (length (c_tab s)) /\
  objs (cat s' (length (c_tab s))) false = nrx /\ objs (cat s' (length (c_tab s))) true = ntx.
Proof.
  intros E s nr nrx ntx rx0 tx0 s' HE C H1 H2 H3 H4 H. destruct (configured_Inv E HE s C) as [R I].
  destruct (add_keeps E HE R s nr nrx ntx rx0 tx0 ERR_OK s' I H1 H2 H3 H4 H) as (_ & _ & X). destruct (X eq_refl) as (X1 & X2 & X3 & X4 & _). auto.
Qed.
Print Assumptions C72_added.
(** its number is the wanted one if this is between 2 and 124 and no other module has it, otherwise 125 plus its position *)
Theorem C72_number : forall E s nr nrx ntx rx0 tx0 s',
  menv_ok E -> configured E s -> (nrx <= 4)%nat -> (ntx <= 4)%nat -> length rx0 = 4%nat -> length tx0 = 4%nat ->
  add_mon E nr nrx ntx rx0 tx0 s = Some (ERR_OK, s') ->
  (2 <= nr <= 124 -> (forall q, (q < length (c_tab s))%nat -> cm_nr (cat s q) <> nr) -> cm_nr (cat s' (length (c_tab s))) = nr) /\
  (nr < 2 \/ 124 < nr \/ (exists q, (q < length (c_tab s))%nat /\ cm_nr (cat s q) = nr) -> cm_nr (cat s' (length (c_tab s))) = 125 + N.of_nat (length (c_tab s))).
Proof.
  intros E s nr nrx ntx rx0 tx0 s' HE C H1 H2 H3 H4 H. destruct (configured_Inv E HE s C) as [R I].
  destruct (add_keeps E HE R s nr nrx ntx rx0 tx0 ERR_OK s' I H1 H2 H3 H4 H) as (_ & _ & X). destruct (X eq_refl) as (_ & _ & _ & _ & ->). clear X.
  unfold limit_nr, NR_MIN, NR_MAX, NR_DEF. split.
  - intros Hn Nq. destruct (existsb _ _) eqn:Ex.
    + exfalso. apply existsb_exists in Ex. destruct Ex as (m & Hm & Q). apply N.eqb_eq in Q. apply (In_nth _ _ cmod0) in Hm. destruct Hm as (q & Lq & Eq). apply (Nq q Lq). unfold cat. rewrite Eq. exact Q.
    + destruct (_ || _) eqn:Q; [|reflexivity]; exfalso; apply orb_true_iff in Q; destruct Q as [Q|Q]; apply N.ltb_lt in Q; lia.
  - intro Hn. destruct (existsb _ _) eqn:Ex; [destruct (_ || _); reflexivity|].
    destruct Hn as [Hn|[Hn|(q & Lq & Q)]]; [destruct (_ || _) eqn:Q; [reflexivity|lia]|destruct (_ || _) eqn:Q; [reflexivity|lia]|].
    exfalso. apply Bool.not_true_iff_false in Ex. apply Ex. apply existsb_exists. exists (cat s q). split; [apply nth_In, Lq|apply N.eqb_eq, Q].
Qed.
Print Assumptions C72_number.
(** ... also when the addition of another module fails *)
Theorem C72_others : forall E s nr nrx ntx rx0 tx0 e s' q,
  menv_ok E -> configured E s -> (nrx <= 4)%nat -> (ntx <= 4)%nat -> length rx0 = 4%nat -> length tx0 = 4%nat ->
  add_mon E nr nrx ntx rx0 tx0 s = Some (e, s') -> (q < length (c_tab s))%nat ->
  cat s' q = cat s q /\ (set_up s q -> set_up s' q).
Proof.
  intros E s nr nrx ntx rx0 tx0 e s' q HE C H1 H2 H3 H4 H. destruct (configured_Inv E HE s C) as [R I].
  destruct (add_keeps E HE R s nr nrx ntx rx0 tx0 e s' I H1 H2 H3 H4 H) as (_ & X & _). exact (X q).
Qed.
Print Assumptions C72_others.
(** C72: after a number change the module has the new number and its objects let the new identifiers pass; the others keep theirs *)
Theorem C72_renumbered : forall E s p new s',
  menv_ok E -> configured E s -> set_up s p -> 1 <= new <= 128 -> renumber_mon E p new s = Some (ERR_OK, s') ->
  cm_nr (cat s' p) = new /\ (forall tx, objs (cat s' p) tx = objs (cat s p) tx) /\
  length (c_tab s') = length (c_tab s) /\ (forall q, q <> p -> cat s' q = cat s q) /\ (forall q, set_up s q -> set_up s' q).
Proof.
  intros E s p new s' HE C U Hn H. destruct (configured_Inv E HE s C) as [R I].
  destruct (renumber_keeps E HE R s p new s' I U Hn H) as (_ & X1 & X2 & X3 & X4). rewrite X3. split; [reflexivity|]. split; [intros []; reflexivity|]. auto.
Qed.
Print Assumptions C72_renumbered.

Lemma accept_eq f id : f < 2048 -> id < 2048 -> N.land (N.lxor id f) 2047 = 0 -> id = f.
Proof.
  intros Hf Hi H. apply N.bits_inj. intro j. destruct (N.lt_ge_cases j 11) as [L|L].
  - assert (N.testbit (N.land (N.lxor id f) 2047) j = false) as X by (rewrite H; apply N.bits_0). rewrite N.land_spec, N.lxor_spec in X. change 2047 with (N.ones 11) in X. rewrite N.ones_spec_low in X by exact L. rewrite andb_true_r in X. destruct (N.testbit id j), (N.testbit f j); (reflexivity || discriminate X).
  - rewrite <- (N.mod_small id 2048), <- (N.mod_small f 2048) by assumption. change 2048 with (2 ^ 11). rewrite !N.mod_pow2_bits_high by exact L. reflexivity.
Qed.
Lemma accept_refl id m : N.land (N.lxor id id) m = 0.
Proof. rewrite N.lxor_nilpotent. reflexivity. Qed.
(** C72: the request for process data, system messages and all identifiers of a completely added module pass *)
Theorem C72_accept : forall E s id,
  menv_ok E -> configured E s ->
  id = 1 \/ id = 2 \/ (exists p tx o, set_up s p /\ (o < objs (cat s p) tx)%nat /\ id = obj_id tx (cm_nr (cat s p)) o) ->
  exists mo, (mo < NM E)%nat /\ mon_accepts s mo id.
Proof.
  intros E s id HE C H. destruct (configured_Inv E HE s C) as [R I]. destruct (i_own _ _ _ _ I) as [O1 O2].
  assert (forall mo, cfilt s mo = Some (id, 2047) -> exists mo, (mo < NM E)%nat /\ mon_accepts s mo id) as K.
  { intros mo F. exists mo. split.
    - rewrite <- (i_lf _ _ _ _ I). destruct (Nat.lt_ge_cases mo (length (c_filt s))) as [L|L]; [exact L|]. unfold cfilt in F. rewrite nth_overflow in F by exact L. discriminate.
    - unfold mon_accepts. unfold cfilt in F. rewrite F. apply accept_refl. }
  destruct H as [->|[->|(p & tx & o & [L U] & Ho & ->)]]; eauto. destruct (U tx o Ho) as [_ F]. eauto.
Qed.
Print Assumptions C72_accept.

Lemma obj_id_parts tx nr o tx' nr' o' : 1 <= nr <= 128 -> 1 <= nr' <= 128 -> (o < 4)%nat -> (o' < 4)%nat -> obj_id tx nr o = obj_id tx' nr' o' -> tx = tx' /\ nr = nr' /\ o = o'.
Proof. intros H1 H2 H3 H4. unfold obj_id, data_tx_id, data_rx_id. destruct tx, tx'; intro H; (split; [try reflexivity; lia|]); lia. Qed.
Lemma obj_id_range tx nr o : 1 <= nr <= 128 -> (o < 4)%nat -> 512 <= obj_id tx nr o < 2048.
Proof. intros H1 H2. unfold obj_id, data_tx_id, data_rx_id. destruct tx; lia. Qed.
(** what an object that takes a frame is for *)
Lemma taken E R s mo id : menv_ok E -> Inv E R (idf s) s -> numbers_fit s -> id < 2048 -> mon_accepts s mo id ->
  mo = MON_PROCESS /\ id = 1 \/ mo = MON_SYS1 /\ id = 2 \/ exists p tx o, In (mo, (p, tx, o)) R /\ id = obj_id tx (cm_nr (cat s p)) o.
Proof.
  intros HE I [Nf _] Hi H. unfold mon_accepts in H. destruct (nth mo (c_filt s) None) as [[f m]|] eqn:F; [|destruct H].
  destruct (i_filt _ _ _ _ I mo (f, m) F) as [[-> Q]|[[-> Q]|([[p tx] o] & Hr)]].
  - injection Q as -> ->. left. split; [reflexivity|]. apply accept_eq; auto; lia.
  - injection Q as -> ->. right. left. split; [reflexivity|]. apply accept_eq; auto; lia.
  - right. right. exists p, tx, o. split; [exact Hr|]. pose proof (i_role _ _ _ _ I _ _ _ _ Hr) as (_ & _ & _ & B4 & B5 & _ & B7 & _). unfold cfilt in B7. rewrite F in B7. injection B7 as -> ->.
    destruct (i_four _ _ _ _ I p B4) as (F1 & F2 & _). apply accept_eq; auto. apply obj_id_range; [apply Nf, B4|]. destruct tx; cbn in B5; lia.
Qed.
Lemma role_frame E R s mo p tx o id dlc data junk now : menv_ok E -> Inv E R (idf s) s -> In (mo, (p, tx, o)) R ->
  mon_frame s mo id dlc data junk now = match mon_search (table s tx) mo with Some q => [if tx then MonTx q id dlc data junk else MonData q id dlc data] | None => [] end.
Proof.
  intros HE I Hr. pose proof (i_role _ _ _ _ I _ _ _ _ Hr) as (B1 & B2 & B3 & B4 & B5 & B6 & B7 & B8).
  assert (mo < 32)%nat as L. { destruct HE as [_ HE]. pose proof (used_lt E s mo (i_lu _ _ _ _ I) B1). lia. }
  assert (in_mask s (negb tx) mo = false) as M.
  { apply not_true_is_false. intro Q. destruct (i_mask _ _ _ _ I _ _ Q) as (q & o' & Hr'). pose proof (role_one R mo _ _ (i_nd _ _ _ _ I) Hr Hr') as X. injection X as _ X _. destruct tx; discriminate. }
  unfold mon_frame. rewrite !(mask_bit _ _ L). unfold in_mask in B8, M. apply Nat.eqb_neq in B2. rewrite B2.
  destruct tx; cbn [negb table] in *; rewrite B8, M; destruct (mon_search _ mo); reflexivity.
Qed.
(** C72: whichever object takes a frame, the frame is processed for the module its identifier belongs to *)
Theorem C72_dispatch : forall E s mo id dlc data junk now,
  menv_ok E -> configured E s -> numbers_fit s -> id < 2048 -> mon_accepts s mo id ->
  (id = 1 -> mon_frame s mo id dlc data junk now = [MonReq dlc now]) /\
  (id = 2 -> mon_frame s mo id dlc data junk now = []) /\
  (forall p tx o, set_up s p -> (o < objs (cat s p) tx)%nat -> id = obj_id tx (cm_nr (cat s p)) o ->
     mon_frame s mo id dlc data junk now = [if tx then MonTx p id dlc data junk else MonData p id dlc data]).
Proof.
  intros E s mo id dlc data junk now HE C Nf Hi H. destruct (configured_Inv E HE s C) as [R I]. pose proof (taken E R s mo id HE I Nf Hi H) as T. destruct Nf as [Nf1 Nf2].
  assert (forall p tx o, (p < length (c_tab s))%nat -> (o < objs (cat s p) tx)%nat -> 1 <= cm_nr (cat s p) <= 128 /\ (o < 4)%nat) as Rg.
  { intros p tx o L Ho. split; [apply Nf1, L|]. destruct (i_four _ _ _ _ I p L) as (F1 & F2 & _). destruct tx; cbn in Ho; lia. }
  assert (forall k, k = MON_PROCESS \/ k = MON_SYS1 -> forall tx, in_mask s tx k = false) as Mk.
  { intros k Hk tx. apply not_true_is_false. intro Q. destruct (i_mask _ _ _ _ I _ _ Q) as (q & o' & Hr). apply (i_role _ _ _ _ I) in Hr. destruct Hr as (_ & X1 & X2 & _). tauto. }
  assert (MON_PROCESS < 32)%nat as L1 by (unfold MON_PROCESS; lia). assert (MON_SYS1 < 32)%nat as L4 by (unfold MON_SYS1; lia).
  destruct T as [[-> ->]|[[-> ->]|(q & tx & o & Hr & ->)]].
  - split; [intros _; unfold mon_frame; rewrite !(mask_bit _ _ L1); pose proof (Mk _ (or_introl eq_refl) true) as M1; pose proof (Mk _ (or_introl eq_refl) false) as M2; unfold in_mask in M1, M2; rewrite M1, M2; reflexivity|].
    split; [discriminate|]. intros p tx o [L _] Ho Q. destruct (Rg p tx o L Ho) as [G1 G2]. pose proof (obj_id_range tx _ o G1 G2). lia.
  - split; [discriminate|]. split; [intros _; unfold mon_frame; rewrite !(mask_bit _ _ L4); pose proof (Mk _ (or_intror eq_refl) true) as M1; pose proof (Mk _ (or_intror eq_refl) false) as M2; unfold in_mask in M1, M2; rewrite M1, M2; reflexivity|].
    intros p tx o [L _] Ho Q. destruct (Rg p tx o L Ho) as [G1 G2]. pose proof (obj_id_range tx _ o G1 G2). lia.
  - pose proof (i_role _ _ _ _ I _ _ _ _ Hr) as (B1 & B2 & B3 & B4 & B5 & B6 & B7 & B8). destruct (Rg q tx o B4 B5) as [G1 G2]. pose proof (obj_id_range tx _ o G1 G2) as Gr.
    split; [intro Q; lia|]. split; [intro Q; lia|]. intros p tx' o' U Ho Q. pose proof (set_up_roles E R s p I U tx' o' Ho) as Hr'. destruct U as [L U]. destruct (Rg p tx' o' L Ho) as [G3 G4].
    apply obj_id_parts in Q; auto. destruct Q as (-> & Qn & ->). apply Nf2 in Qn; auto. subst q.
    rewrite (role_frame E R s mo p tx' o' _ _ _ _ _ HE I Hr).
    assert (mo < 32)%nat as Lm. { destruct HE as [_ HE]. pose proof (used_lt E s mo (i_lu _ _ _ _ I) B1). lia. }
    destruct (U tx' o' Ho) as [U1 _]. rewrite B6 in U1. destruct (search_some _ _ _ Lm U1) as [q Sq]. rewrite Sq.
    apply search_in in Sq; [|exact Lm|]. 2: { intros k q' Hk. destruct (i_tab _ _ _ _ I _ _ _ Hk) as (o'' & Hk'). apply (i_role _ _ _ _ I) in Hk'. destruct Hk' as (X & _). destruct HE as [_ HE]. pose proof (used_lt E s k (i_lu _ _ _ _ I) X). lia. }
    destruct (i_tab _ _ _ _ I _ _ _ Sq) as (o'' & Sr). pose proof (role_one R mo _ _ (i_nd _ _ _ _ I) Hr Sr) as X. injection X as <- _. destruct tx'; reflexivity.
Qed.
Print Assumptions C72_dispatch.
(** C72: no other frame is taken, and none is taken by two objects *)
Theorem C72_only : forall E s mo id,
  menv_ok E -> configured E s -> numbers_fit s -> id < 2048 -> mon_accepts s mo id ->
  id = 1 \/ id = 2 \/ exists p tx o, (p < length (c_tab s))%nat /\ (o < objs (cat s p) tx)%nat /\ id = obj_id tx (cm_nr (cat s p)) o.
Proof.
  intros E s mo id HE C Nf Hi H. destruct (configured_Inv E HE s C) as [R I]. destruct (taken E R s mo id HE I Nf Hi H) as [[_ ->]|[[_ ->]|(p & tx & o & Hr & ->)]]; auto.
  right. right. exists p, tx, o. pose proof (i_role _ _ _ _ I _ _ _ _ Hr) as (B1 & B2 & B3 & B4 & B5 & _). auto.
Qed.
Print Assumptions C72_only.
Theorem C72_once : forall E s mo mo' id,
  menv_ok E -> configured E s -> numbers_fit s -> id < 2048 -> mon_accepts s mo id -> mon_accepts s mo' id -> mo = mo'.
Proof.
  intros E s mo mo' id HE C Nf Hi H H'. destruct (configured_Inv E HE s C) as [R I]. pose proof (taken E R s mo id HE I Nf Hi H) as T. pose proof (taken E R s mo' id HE I Nf Hi H') as T'. destruct Nf as [Nf1 Nf2].
  assert (forall k p tx o, In (k, (p, tx, o)) R -> (p < length (c_tab s))%nat /\ 1 <= cm_nr (cat s p) <= 128 /\ (o < 4)%nat /\ obj_mo (cat s p) tx o = k) as Rg.
  { intros k p tx o Hr. pose proof (i_role _ _ _ _ I _ _ _ _ Hr) as (B1 & B2 & B3 & B4 & B5 & B6 & _). destruct (i_four _ _ _ _ I p B4) as (F1 & F2 & _). split; [exact B4|]. split; [apply Nf1, B4|]. split; [destruct tx; cbn in B5; lia|exact B6]. }
  destruct T as [[-> ->]|[[-> ->]|(p & tx & o & Hr & ->)]], T' as [[-> Q]|[[-> Q]|(p' & tx' & o' & Hr' & Q)]]; try reflexivity; try discriminate Q.
  - destruct (Rg _ _ _ _ Hr') as (K1 & K2 & K3 & _). pose proof (obj_id_range tx' _ o' K2 K3). lia.
  - destruct (Rg _ _ _ _ Hr') as (K1 & K2 & K3 & _). pose proof (obj_id_range tx' _ o' K2 K3). lia.
  - destruct (Rg _ _ _ _ Hr) as (K1 & K2 & K3 & _). pose proof (obj_id_range tx _ o K2 K3). lia.
  - destruct (Rg _ _ _ _ Hr) as (K1 & K2 & K3 & _). pose proof (obj_id_range tx _ o K2 K3). lia.
  - destruct (Rg _ _ _ _ Hr) as (K1 & K2 & K3 & K4), (Rg _ _ _ _ Hr') as (K1' & K2' & K3' & K4'). apply obj_id_parts in Q; auto. destruct Q as (<- & Q & <-). apply Nf2 in Q; auto. subst p'. congruence.
Qed.
Print Assumptions C72_once.

(** ** examples *)
Definition E1 := MEnv 8 32.
Definition z4 : list nat := [0; 0; 0; 0]%nat.
Fixpoint ops (l : list mop) (s : mcfg) : option mcfg :=
  match l with [] => Some s | o :: t => match mon_op E1 o s with Some (_, s') => ops t s' | None => None end end.
Definition boot1 : option mcfg := match mon_init E1 (start [] []) with Some (0, s) => Some s | _ => None end.
Definition run (l : list mop) : mcfg := match boot1 with Some s => match ops l s with Some s' => s' | None => s end | None => start [] [] end.
Lemma E1_ok : menv_ok E1.
Proof. unfold menv_ok, E1. cbn. lia. Qed.
Definition two := run [MAdd 5 2 2 z4 z4; MAdd 9 1 3 z4 z4].
Lemma boot1_conf : configured E1 (run []).
Proof. apply (cf_start E1 [] []). vm_compute. reflexivity. Qed.
Lemma two_conf : configured E1 two.
Proof.
  apply (cf_add E1 (run [MAdd 5 2 2 z4 z4]) 9 1 3 z4 z4 ERR_OK); [|lia|lia|reflexivity|reflexivity|vm_compute; reflexivity].
  apply (cf_add E1 (run []) 5 2 2 z4 z4 ERR_OK); [|lia|lia|reflexivity|reflexivity|vm_compute; reflexivity]. apply boot1_conf.
Qed.
Lemma two_up : forall p, (p < 2)%nat -> set_up two p.
Proof.
  intros [|[|p]] H; [| |lia]; (split; [vm_compute; lia|]); intros tx o Ho.
  - destruct tx; vm_compute in Ho; (destruct o as [|[|o]]; [| |lia]); vm_compute; auto 10.
  - destruct tx; vm_compute in Ho; (destruct o as [|[|[|o]]]; try lia); vm_compute; auto 10.
Qed.
Example C72_example_two : configured E1 two /\ set_up two 0 /\ set_up two 1 /\ numbers_fit two.
Proof.
  split; [exact two_conf|]. split; [apply two_up; lia|]. split; [apply two_up; lia|]. split.
  - intros [|[|p]] H; vm_compute in H |- *; try lia; split; discriminate.
  - intros [|[|p]] [|[|q]] H H' Q; vm_compute in H, H', Q; try lia; discriminate.
Qed.
(** ... module 1, number 9, sends object 2: the monitor compares it with what module 1 sent *)
Example C72_example_frame : mon_accepts two 8 (data_tx_id 9 2) /\ mon_frame two 8 (data_tx_id 9 2) 8 [1; 2] [] 0 = [MonTx 1 (data_tx_id 9 2) 8 [1; 2] []].
Proof. vm_compute. auto. Qed.
(** ... and after a number change *)
Example C72_example_renumber : exists s', renumber_mon E1 1 40 two = Some (ERR_OK, s') /\ mon_accepts s' 8 (data_tx_id 40 2) /\ ~ mon_accepts s' 8 (data_tx_id 9 2) /\
  mon_frame s' 8 (data_tx_id 40 2) 8 [1; 2] [] 0 = [MonTx 1 (data_tx_id 40 2) 8 [1; 2] []].
Proof. eexists. split; [vm_compute; reflexivity|]. split; [vm_compute; reflexivity|]. split; [vm_compute; discriminate|vm_compute; reflexivity]. Qed.

(** ** C73 *)
(** what holds: with a free entry, enough free message objects, hardware that accepts them and 16 transmit objects at most *)
Theorem C73_possible_partial : forall E s nr nrx ntx rx0 tx0,
  menv_ok E -> configured E s -> (nrx <= 4)%nat -> c_orc s = [] -> c_main s = [] -> (length (c_tab s) < MM E)%nat ->
  (nrx + ntx <= length (filter negb (c_used s)))%nat -> (length (c_txtab s) + ntx <= 16)%nat ->
  exists s', add_mon E nr nrx ntx rx0 tx0 s = Some (ERR_OK, s').
Proof. intros. apply add_possible; auto. Qed.
Print Assumptions C73_possible_partial.
Example C73_possible_example : configured E1 two /\ c_orc two = [] /\ c_main two = [] /\ (length (c_tab two) < MM E1)%nat /\
  (4 + 4 <= length (filter negb (c_used two)))%nat /\ (length (c_txtab two) + 4 <= 16)%nat.
Proof. split; [exact two_conf|]. vm_compute. repeat split; lia. Qed.
(** every module that finds a free entry and whose message objects can be defined is added completely: false, the table of the
    transmit objects that are checked has 16 entries only; the fifth module with four objects has to do without monitoring, and
    can_config_add_module reports success whatever can_config_set_module returned (io_can_config.c:1006-1014) *)
Definition five := run (repeat (MAdd 0 1 4 z4 z4) 5).
Lemma five_conf : configured E1 five.
Proof.
  assert (forall n, (n <= 5)%nat -> configured E1 (run (repeat (MAdd 0 1 4 z4 z4) n))) as K; [|apply (K 5%nat); lia].
  induction n as [|n IH]; intro H; [exact boot1_conf|].
  assert (n < 5)%nat as Ln by lia. specialize (IH ltac:(lia)).
  do 5 (destruct n as [|n]; [eapply (cf_add E1 _ 0 1 4 z4 z4); [exact IH|lia|lia|reflexivity|reflexivity|vm_compute; reflexivity]|]). lia.
Qed.
Theorem C73_full_refuted : exists E s s', menv_ok E /\ configured E s /\ length (c_tab s) = 4%nat /\ c_orc s = [] /\ c_main s = [] /\
  (forall p, (p < 4)%nat -> set_up s p) /\ (exists mo, first_free (c_used s) 0 = Some mo) /\
  add_mon E 0 1 4 z4 z4 s = Some (E_MON_TX_CNFG, s') /\ length (c_tab s') = 5%nat /\ ~ set_up s' 4.
Proof.
  exists E1, (run (repeat (MAdd 0 1 4 z4 z4) 4)), five. split; [exact E1_ok|]. split.
  { assert (forall n, (n <= 4)%nat -> configured E1 (run (repeat (MAdd 0 1 4 z4 z4) n))) as K; [|apply (K 4%nat); lia].
    induction n as [|n IH]; intro H; [exact boot1_conf|]. assert (n < 4)%nat as Ln by lia. specialize (IH ltac:(lia)).
    do 4 (destruct n as [|n]; [eapply (cf_add E1 _ 0 1 4 z4 z4); [exact IH|lia|lia|reflexivity|reflexivity|vm_compute; reflexivity]|]). lia. }
  split; [reflexivity|]. split; [reflexivity|]. split; [reflexivity|]. split.
  { intros [|[|[|[|p]]]] H; try lia; (split; [vm_compute; lia|]); intros tx o Ho; destruct tx; vm_compute in Ho; (destruct o as [|[|[|[|o]]]]; try lia); vm_compute; (split; [tauto|reflexivity]). }
  split; [eexists; vm_compute; reflexivity|]. split; [vm_compute; reflexivity|]. split; [reflexivity|].
  intros [_ U]. specialize (U true 0%nat ltac:(vm_compute; lia)). destruct U as [U _]. vm_compute in U. repeat (destruct U as [U|U]; [discriminate|]). exact U.
Qed.
Print Assumptions C73_full_refuted.
(** the number change of such a module takes a message object away from another one: object 0 of the monitor, the first module's
    first transmit object, so that this frame is no longer checked, and frames of the renumbered module count as the first one's *)
Theorem C73_stolen_refuted : exists E s s', menv_ok E /\ configured E s /\ set_up s 0 /\ cm_nr (cat s 0) = 125 /\
  renumber_mon E 4 40 s = Some (ERR_OK, s') /\ cat s' 0 = cat s 0 /\ ~ set_up s' 0 /\
  (forall mo, ~ mon_accepts s' mo (data_tx_id 125 0)) /\
  (exists mo, mon_accepts s' mo (data_rx_id 40 0) /\
     forall dlc data junk now, mon_frame s' mo (data_rx_id 40 0) dlc data junk now = [MonTx 0 (data_rx_id 40 0) dlc data junk]).
Proof.
  exists E1, five. eexists. split; [exact E1_ok|]. split; [exact five_conf|]. split.
  { split; [vm_compute; lia|]; intros tx o Ho; destruct tx; vm_compute in Ho; (destruct o as [|[|[|[|o]]]]; try lia); vm_compute; (split; [tauto|reflexivity]). }
  split; [reflexivity|]. split; [vm_compute; reflexivity|]. split; [reflexivity|]. split.
  { intros [_ U]. specialize (U true 0%nat ltac:(vm_compute; lia)). destruct U as [_ U]. vm_compute in U. discriminate. }
  split.
  { intros mo H. do 32 (destruct mo as [|mo]; [vm_compute in H; (exact H || discriminate H)|]). unfold mon_accepts in H. rewrite nth_overflow in H; [exact H|vm_compute; lia]. }
  exists 0%nat. split; [vm_compute; reflexivity|]. intros. vm_compute. reflexivity.
Qed.
Print Assumptions C73_stolen_refuted.
(** default numbers: a module without a valid number gets 125 plus its position, at position 5 the number 130; its receive
    identifiers are the transmit identifiers of module number 2, so two objects take the same frame *)
Definition six := run (MAdd 2 1 1 z4 z4 :: repeat (MAdd 0 1 1 z4 z4) 5).
Lemma six_conf : configured E1 six.
Proof.
  assert (forall n, (n <= 5)%nat -> configured E1 (run (MAdd 2 1 1 z4 z4 :: repeat (MAdd 0 1 1 z4 z4) n))) as K; [|apply (K 5%nat); lia].
  induction n as [|n IH]; intro H.
  - eapply (cf_add E1 _ 2 1 1 z4 z4); [exact boot1_conf|lia|lia|reflexivity|reflexivity|vm_compute; reflexivity].
  - assert (n < 5)%nat as Ln by lia. specialize (IH ltac:(lia)).
    do 5 (destruct n as [|n]; [eapply (cf_add E1 _ 0 1 1 z4 z4); [exact IH|lia|lia|reflexivity|reflexivity|vm_compute; reflexivity]|]). lia.
Qed.
Theorem C73_default_refuted : exists E s mo mo', menv_ok E /\ configured E s /\ (forall p, (p < length (c_tab s))%nat -> set_up s p) /\
  map cm_nr (c_tab s) = [2; 126; 127; 128; 129; 130] /\ mo <> mo' /\ mon_accepts s mo (data_tx_id 2 0) /\ mon_accepts s mo' (data_tx_id 2 0) /\
  forall dlc data junk now, mon_frame s mo (data_tx_id 2 0) dlc data junk now = [MonTx 0 (data_tx_id 2 0) dlc data junk] /\
                            mon_frame s mo' (data_tx_id 2 0) dlc data junk now = [MonData 5 (data_tx_id 2 0) dlc data].
Proof.
  exists E1, six, (obj_mo (cat six 0) true 0), (obj_mo (cat six 5) false 0). split; [exact E1_ok|]. split; [exact six_conf|]. split.
  { intros [|[|[|[|[|[|p]]]]]] H; try (vm_compute in H; lia); (split; [vm_compute; lia|]); intros tx o Ho; destruct tx; vm_compute in Ho; (destruct o as [|o]; try lia); vm_compute; (split; [tauto|reflexivity]). }
  split; [vm_compute; reflexivity|]. split; [vm_compute; discriminate|]. split; [vm_compute; reflexivity|]. split; [vm_compute; reflexivity|]. intros. vm_compute. split; reflexivity.
Qed.
Print Assumptions C73_default_refuted.
