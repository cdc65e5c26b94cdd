(** Lookups by type, number and both (C55) and identifiers (C12). *)
From Verif Require Import Words WordsFacts ErrModel NodeModel NodeLib LookModel LookSpec.

Lemma strcmp_spec a : forall c, strcmp_eq a c = true <-> cstr a = cstr c.
Proof.
  induction a as [|x a IH]; intro c; destruct c as [|y c]; cbn [strcmp_eq cstr hd tl].
  - tauto.
  - destruct (N.eqb_spec y 0); split; intro; congruence.
  - destruct (N.eqb_spec x 0) as [->|]; [tauto|]. split; intro; congruence.
  - destruct (N.eqb_spec x y) as [->|Nx].
    + destruct (N.eqb_spec y 0); [tauto|]. rewrite IH. split; intro; congruence.
    + destruct (N.eqb_spec x 0), (N.eqb_spec y 0); split; intro; congruence.
Qed.
Lemma strn_spec n : forall a c, (length (cstr c) < n)%nat -> strn_eq n a c = true <-> cstr c = cstr a.
Proof.
  induction n as [|n IH]; intros a c L; [inversion L|]. destruct a as [|x a], c as [|y c]; cbn [strn_eq cstr hd tl length] in *.
  - tauto.
  - destruct (N.eqb_spec 0 y) as [<-|Ny]; [cbn; tauto|]. destruct (N.eqb_spec y 0); split; intro; congruence.
  - destruct (N.eqb_spec x 0) as [->|Nx]; [tauto|]. split; intro; congruence.
  - destruct (N.eqb_spec x y) as [->|Nx].
    + destruct (N.eqb_spec y 0); [tauto|]. cbn [length] in L. rewrite IH by lia. split; intro; congruence.
    + destruct (N.eqb_spec x 0), (N.eqb_spec y 0); split; intro; congruence.
Qed.
Lemma first_cons (P : modl -> Prop) m t : P m -> is_first P (m :: t) 0.
Proof. intro H. split; [cbn; lia|]. split; [exact H|]. intros q Hq. lia. Qed.
Lemma first_skip (P : modl -> Prop) m t p : ~ P m -> is_first P t p <-> is_first P (m :: t) (S p).
Proof.
  intro H. unfold is_first, entry. cbn [nth length]. split; intros (L & Q & F); (split; [lia|]); (split; [exact Q|]).
  - intros [|q] Hq; [exact H|]. apply F. lia.
  - intros q Hq. apply (F (S q)). lia.
Qed.
Lemma none_cons (P : modl -> Prop) m t : ~ P m -> none P t <-> none P (m :: t).
Proof.
  intro H. unfold none, entry. split; intros N p Lp; [destruct p as [|p]; [exact H|]; apply N; cbn in Lp; lia|]. apply (N (S p)). cbn. lia.
Qed.
Lemma first_none P tab p : is_first P tab p -> none P tab -> False.
Proof. intros (L & Q & _) N. exact (N p L Q). Qed.
Lemma first_unique P tab p q : is_first P tab p -> is_first P tab q -> p = q.
Proof. intros (L & Q & F) (L' & Q' & F'). destruct (Nat.lt_trichotomy p q) as [H|[H|H]]; [exfalso; exact (F' _ H Q)|exact H|exfalso; exact (F _ H Q')]. Qed.

(** each loop computes the first match *)
Lemma nr_loop tab nr : forall i, (exists p, is_first (of_nr nr) tab p /\ nr_valid_loop tab nr i = (S (i + p), 1)) \/ (none (of_nr nr) tab /\ nr_valid_loop tab nr i = ((i + length tab)%nat, 0)).
Proof.
  induction tab as [|m t IH]; intro i; cbn [nr_valid_loop length].
  - right. split; [intros p Hp; inversion Hp|]. rewrite Nat.add_0_r. reflexivity.
  - destruct (N.eqb_spec (m_nr m) nr) as [Q|Q].
    + left. exists 0%nat. split; [apply first_cons; exact Q|]. rewrite Nat.add_0_r. reflexivity.
    + destruct (IH (S i)) as [(p & F & ->)|[F ->]].
      * left. exists (S p). split; [apply first_skip; auto|]. f_equal. lia.
      * right. split; [apply none_cons; auto|]. f_equal. lia.
Qed.
Lemma type_loop tab type : forall i, (exists p, is_first (of_type type) tab p /\ type_valid_loop tab type i = (ERR_OK, (i + p)%nat)) \/ (none (of_type type) tab /\ type_valid_loop tab type i = (E_TYPE_NOT_FOUND, 0%nat)).
Proof.
  induction tab as [|m t IH]; intro i; cbn [type_valid_loop].
  - right. split; [intros p Hp; inversion Hp|reflexivity].
  - destruct (strcmp_eq (m_type m) type) eqn:Q.
    + left. exists 0%nat. apply strcmp_spec in Q. split; [apply first_cons; exact Q|]. rewrite Nat.add_0_r. reflexivity.
    + assert (~ of_type type m) as Nm by (intro X; apply strcmp_spec in X; congruence). destruct (IH (S i)) as [(p & F & ->)|[F ->]].
      * left. exists (S p). split; [apply first_skip; auto|]. f_equal. lia.
      * right. split; [apply none_cons; auto|reflexivity].
Qed.
Lemma both_loop tab type nr : terminated tab -> forall i, (exists p, is_first (of_both type nr) tab p /\ pos_type_nr tab type nr i = (i + p)%nat) \/ (none (of_both type nr) tab /\ pos_type_nr tab type nr i = (i + length tab)%nat).
Proof.
  intro T. induction T as [|m t L T IH]; intro i; cbn [pos_type_nr length].
  - right. split; [intros p Hp; inversion Hp|]. lia.
  - assert ((if strn_eq 5 type (m_type m) then (if m_nr m =? nr then i else pos_type_nr t type nr (S i)) else pos_type_nr t type nr (S i)) =
            if strn_eq 5 type (m_type m) && (m_nr m =? nr) then i else pos_type_nr t type nr (S i)) as -> by (destruct (strn_eq _ _ _); reflexivity).
    destruct (strn_eq 5 type (m_type m) && (m_nr m =? nr)) eqn:Q.
    + left. exists 0%nat. apply andb_prop in Q. destruct Q as [Q1 Q2]. apply strn_spec in Q1; [|lia]. apply N.eqb_eq in Q2. split; [apply first_cons; split; auto|]. lia.
    + assert (~ of_both type nr m) as Nm. { intros [X1 X2]. apply (strn_spec 5) in X1; [|lia]. unfold of_nr in X2. rewrite X1, X2, N.eqb_refl in Q. discriminate. }
      destruct (IH (S i)) as [(p & F & ->)|[F ->]].
      * left. exists (S p). split; [apply first_skip; auto|]. lia.
      * right. split; [apply none_cons; auto|]. lia.
Qed.
Lemma by_type tab type : (exists p, is_first (of_type type) tab p /\ type_valid tab type = (ERR_OK, p)) \/ (none (of_type type) tab /\ type_valid tab type = (E_TYPE_NOT_FOUND, 0%nat)).
Proof. exact (type_loop tab type 0). Qed.
Lemma by_nr tab silent nr : (exists p, is_first (of_nr nr) tab p /\ nr_valid tab silent nr = (p, nth p silent 0, 1)) \/
  (none (of_nr nr) tab /\ nr_valid tab silent nr = ((length tab - 1)%nat, nth (length tab - 1) silent 0, 0)).
Proof.
  unfold nr_valid. destruct (nr_loop tab nr 0) as [(p & F & ->)|[F ->]].
  - left. exists p. split; [exact F|]. cbn [plus]. replace (S p - 1)%nat with p by lia. reflexivity.
  - right. split; [exact F|]. reflexivity.
Qed.
Lemma by_both tab type nr : terminated tab -> (exists p, is_first (of_both type nr) tab p /\ module_valid tab type nr = (ERR_OK, p)) \/ (none (of_both type nr) tab /\ module_valid tab type nr = (E_MODULE_NOT_FOUND, 0%nat)).
Proof.
  intro T. unfold module_valid. destruct (both_loop tab type nr T 0) as [(p & F & ->)|[F ->]].
  - left. exists p. split; [exact F|]. cbn [plus]. destruct F as [L _]. destruct (Nat.ltb_spec p (length tab)); [reflexivity|lia].
  - right. split; [exact F|]. cbn [plus]. rewrite Nat.ltb_irrefl. reflexivity.
Qed.
Lemma ok_ne : ERR_OK <> E_TYPE_NOT_FOUND /\ ERR_OK <> E_MODULE_NOT_FOUND.
Proof. split; discriminate. Qed.
Lemma type_iff tab type p : (type_valid tab type = (ERR_OK, p) <-> is_first (of_type type) tab p) /\ (fst (type_valid tab type) <> ERR_OK <-> none (of_type type) tab).
Proof.
  destruct (by_type tab type) as [(q & F & ->)|[F ->]]; cbn [fst]; split; split; intro H; try discriminate; try congruence; try (exfalso; eapply first_none; eassumption); try assumption; try (intro; discriminate).
  - f_equal. eapply first_unique; eauto.
Qed.
Lemma nr_iff tab silent nr p : ((exists st, nr_valid tab silent nr = (p, st, 1)) <-> is_first (of_nr nr) tab p) /\ (snd (nr_valid tab silent nr) = 0 <-> none (of_nr nr) tab) /\
  (is_first (of_nr nr) tab p -> nr_valid tab silent nr = (p, nth p silent 0, 1)).
Proof.
  destruct (by_nr tab silent nr) as [(q & F & ->)|[F ->]]; cbn [snd].
  - split; [|split]; [split| split |]; intro H; try discriminate; try (exfalso; eapply first_none; eassumption).
    + destruct H as [st H]. injection H as -> _. exact F.
    + pose proof (first_unique _ _ _ _ F H) as ->. eauto.
    + pose proof (first_unique _ _ _ _ F H) as ->. reflexivity.
  - split; [|split]; [split| split |]; intro H; try reflexivity; try assumption; try (exfalso; eapply first_none; eassumption). destruct H. discriminate.
Qed.
Lemma both_iff tab type nr p : terminated tab -> (module_valid tab type nr = (ERR_OK, p) <-> is_first (of_both type nr) tab p) /\ (fst (module_valid tab type nr) <> ERR_OK <-> none (of_both type nr) tab).
Proof.
  intro T. destruct (by_both tab type nr T) as [(q & F & ->)|[F ->]]; cbn [fst]; split; split; intro H; try discriminate; try congruence; try (exfalso; eapply first_none; eassumption); try assumption; try (intro; discriminate).
  - f_equal. eapply first_unique; eauto.
Qed.
(** an entry found by type and number is also the result for its number alone if no earlier entry has the number, and
    for its type alone if no earlier entry has the type *)
Lemma agree tab silent type nr p : terminated tab -> module_valid tab type nr = (ERR_OK, p) ->
  (exists q, (q <= p)%nat /\ type_valid tab type = (ERR_OK, q)) /\ (exists q, (q <= p)%nat /\ nr_valid tab silent nr = (q, nth q silent 0, 1)) /\
  ((forall q, (q < p)%nat -> m_nr (entry tab q) <> nr) -> nr_valid tab silent nr = (p, nth p silent 0, 1)) /\
  ((forall q, (q < p)%nat -> cstr (m_type (entry tab q)) <> cstr type) -> type_valid tab type = (ERR_OK, p)).
Proof.
  intros T H. apply both_iff in H; auto. destruct H as (L & [B1 B2] & F). split; [|split; [|split]].
  - destruct (by_type tab type) as [(q & Q & ->)|[Q _]]; [|exfalso; exact (Q p L B1)]. exists q. split; [|reflexivity]. destruct Q as (_ & _ & Q). destruct (Nat.lt_ge_cases p q) as [X|X]; [exfalso; exact (Q p X B1)|exact X].
  - destruct (by_nr tab silent nr) as [(q & Q & ->)|[Q _]]; [|exfalso; exact (Q p L B2)]. exists q. split; [|reflexivity]. destruct Q as (_ & _ & Q). destruct (Nat.lt_ge_cases p q) as [X|X]; [exfalso; exact (Q p X B2)|exact X].
  - intro U. apply nr_iff. split; [exact L|]. split; [exact B2|exact U].
  - intro U. apply type_iff. split; [exact L|]. split; [exact B1|exact U].
Qed.
Lemma getters tab silent p : (p < length tab)%nat -> get_type tab p = Some (m_type (entry tab p)) /\ get_nr tab p = Some (m_nr (entry tab p)) /\
  (forall type, type_valid tab type = (ERR_OK, p) -> option_map cstr (get_type tab p) = Some (cstr type) /\ nr_by_type tab type = (ERR_OK, m_nr (entry tab p)) /\ get_module tab type = (ERR_OK, Some (entry tab p))) /\
  (forall nr st, nr_valid tab silent nr = (p, st, 1) -> get_nr tab p = Some nr).
Proof.
  intro L. assert (get_type tab p = Some (m_type (entry tab p)) /\ get_nr tab p = Some (m_nr (entry tab p))) as [G1 G2] by (unfold get_type, get_nr; destruct (Nat.ltb_spec p (length tab)); [split; reflexivity|lia]).
  split; [exact G1|]. split; [exact G2|]. split.
  - intros type H. assert (is_first (of_type type) tab p) as (_ & Q & _) by (apply type_iff; exact H). rewrite G1. cbn [option_map]. rewrite Q. split; [reflexivity|].
    unfold nr_by_type, get_module. rewrite H. change (ERR_OK =? ERR_OK) with true. cbv iota. split; [reflexivity|]. f_equal. apply nth_error_nth'. exact L.
  - intros nr st H. rewrite G2. f_equal. assert (is_first (of_nr nr) tab p) as (_ & Q & _) by (apply (nr_iff tab silent); eauto). exact Q.
Qed.
Lemma getters_range tab p : (length tab <= p)%nat -> get_type tab p = None /\ get_nr tab p = None.
Proof. intro L. unfold get_type, get_nr. destruct (Nat.ltb_spec p (length tab)); [lia|]. split; reflexivity. Qed.

(** identifiers *)
Lemma ident_eq c nr obj : 1 <= nr <= 128 -> (obj < 4)%nat -> ident_of c nr obj = class_base c + 4 * (nr - 1) + if has_objects c then N.of_nat obj else 0.
Proof. intros H Ho. unfold ident_of, can_ident, u16. destruct c; cbn [class_base has_objects]; lia. Qed.
Lemma ident_small c nr obj : 1 <= nr <= 128 -> (obj < 4)%nat -> ident_of c nr obj <= 2047.
Proof. intros H Ho. rewrite ident_eq by auto. destruct c; cbn [class_base has_objects]; lia. Qed.
Lemma ident_inj c c' nr nr' o o' : 1 <= nr <= 128 -> 1 <= nr' <= 128 -> (o < 4)%nat -> (o' < 4)%nat -> ident_of c nr o = ident_of c' nr' o' ->
  c = c' /\ nr = nr' /\ (has_objects c = true -> o = o').
Proof.
  intros H H' Ho Ho' Q. rewrite !ident_eq in Q by auto. destruct c, c'; cbn [class_base has_objects] in *; try (exfalso; lia);
    (split; [reflexivity|]); (split; [lia|]); intro; try discriminate; lia.
Qed.
Lemma land_127 x : N.land x 127 = x mod 128.
Proof. change 127 with (N.ones 7). rewrite N.land_ones. reflexivity. Qed.
Lemma ident_decode c nr obj : 1 <= nr <= 128 -> (obj < 4)%nat -> decode_nr c (ident_of c nr obj) = nr /\ (has_objects c = true -> decode_obj (ident_of c nr obj) = N.of_nat obj).
Proof.
  intros H Ho. rewrite ident_eq by auto. unfold decode_obj. change 3 with (N.ones 2). rewrite N.land_ones. change (2 ^ 2) with 4. split.
  - unfold decode_nr, rx_nr, u16. rewrite N.shiftr_div_pow2, land_127. change (2 ^ 2) with 4. destruct c; cbn [class_base has_objects]; lia.
  - destruct c; cbn [class_base has_objects]; intro; try discriminate; lia.
Qed.
