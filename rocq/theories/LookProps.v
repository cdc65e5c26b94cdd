(** Properties C12 (identifiers) and C55 (lookups). *)
From Verif Require Import Words ErrModel NodeModel NodeSpec NodeEx LookModel LookSpec LookProofs.

(** C12: for numbers 1 to 128 and objects 0 to 3 every identifier is at most 0x7FF, identifiers of different class, number
    or object differ, and the handlers recover number and object. *)
Theorem C12_at_most_7FF : forall c nr obj, 1 <= nr <= 128 -> (obj < 4)%nat -> ident_of c nr obj <= 0x7FF.
Proof. exact ident_small. Qed.
Print Assumptions C12_at_most_7FF.
Theorem C12_collision_free : forall c c' nr nr' o o', 1 <= nr <= 128 -> 1 <= nr' <= 128 -> (o < 4)%nat -> (o' < 4)%nat ->
  ident_of c nr o = ident_of c' nr' o' -> c = c' /\ nr = nr' /\ (c = DataRx \/ c = DataTx -> o = o').
Proof. intros. destruct (ident_inj c c' nr nr' o o') as (A & B & C); auto. split; [exact A|]. split; [exact B|]. intros [Q|Q]; apply C; rewrite Q; reflexivity. Qed.
Print Assumptions C12_collision_free.
Theorem C12_decoded : forall c nr obj, 1 <= nr <= 128 -> (obj < 4)%nat ->
  decode_nr c (ident_of c nr obj) = nr /\ (c = DataRx \/ c = DataTx -> decode_obj (ident_of c nr obj) = N.of_nat obj).
Proof. intros c nr obj H1 H2. destruct (ident_decode c nr obj H1 H2) as (A & C). split; [exact A|]. intros [Q|Q]; apply C; rewrite Q; reflexivity. Qed.
Print Assumptions C12_decoded.

Example C12_case : map (fun c => ident_of c 128 3) [SysRx; SysTx; DataRx; DataTx; CtrlRx; CtrlTx; AsyncRx; AsyncTx] = [510; 511; 1023; 1535; 2044; 2045; 2046; 2047] /\
  ident_of DataRx 10 2 = 550 /\ decode_nr DataRx 550 = 10 /\ decode_obj 550 = 2 /\ ident_of CtrlRx 129 0 = 2048.
Proof. repeat split. Qed.

(** C55: for every table of types stored as strings of at most 4 characters, the lookups return the first matching entry
    and fail iff there is none. *)
Theorem C55_by_type_partial : forall tab type p,
  (type_valid tab type = (ERR_OK, p) <-> is_first (of_type type) tab p) /\
  (fst (type_valid tab type) <> ERR_OK <-> none (of_type type) tab).
Proof. exact type_iff. Qed.
Print Assumptions C55_by_type_partial.
Theorem C55_by_number_partial : forall tab silent nr p,
  ((exists st, nr_valid tab silent nr = (p, st, 1)) <-> is_first (of_nr nr) tab p) /\
  (snd (nr_valid tab silent nr) = 0 <-> none (of_nr nr) tab) /\
  (is_first (of_nr nr) tab p -> nr_valid tab silent nr = (p, nth p silent 0, 1)).
Proof. exact nr_iff. Qed.
Print Assumptions C55_by_number_partial.
Theorem C55_by_type_and_number_partial : forall tab type nr p, terminated tab ->
  (module_valid tab type nr = (ERR_OK, p) <-> is_first (of_both type nr) tab p) /\
  (fst (module_valid tab type nr) <> ERR_OK <-> none (of_both type nr) tab).
Proof. exact both_iff. Qed.
Print Assumptions C55_by_type_and_number_partial.
(** the lookups agree: an entry found by type and number is never before the ones found by type or number alone, and is
    the same one if no earlier entry has the type or number *)
Theorem C55_lookups_agree_partial : forall tab silent type nr p, terminated tab -> module_valid tab type nr = (ERR_OK, p) ->
  (exists q, (q <= p)%nat /\ type_valid tab type = (ERR_OK, q)) /\
  (exists q, (q <= p)%nat /\ nr_valid tab silent nr = (q, nth q silent 0, 1)) /\
  ((forall q, (q < p)%nat -> m_nr (entry tab q) <> nr) -> nr_valid tab silent nr = (p, nth p silent 0, 1)) /\
  ((forall q, (q < p)%nat -> cstr (m_type (entry tab q)) <> cstr type) -> type_valid tab type = (ERR_OK, p)).
Proof. exact agree. Qed.
Print Assumptions C55_lookups_agree_partial.
(** the getters return type and number of the position found, and refuse positions outside of the table *)
Theorem C55_getters_partial : forall tab silent p, (p < length tab)%nat ->
  get_type tab p = Some (m_type (entry tab p)) /\ get_nr tab p = Some (m_nr (entry tab p)) /\
  (forall type, type_valid tab type = (ERR_OK, p) ->
     option_map cstr (get_type tab p) = Some (cstr type) /\ nr_by_type tab type = (ERR_OK, m_nr (entry tab p)) /\
     get_module tab type = (ERR_OK, Some (entry tab p))) /\
  (forall nr st, nr_valid tab silent nr = (p, st, 1) -> get_nr tab p = Some nr).
Proof. exact getters. Qed.
Print Assumptions C55_getters_partial.
Theorem C55_getters_range_partial : forall tab p, (length tab <= p)%nat -> get_type tab p = None /\ get_nr tab p = None.
Proof. exact getters_range. Qed.
Print Assumptions C55_getters_range_partial.
(** finding: "found" does not mean configured. Unused slots have numbers and the empty type, so both lookups also find
    slots no module was ever added to. *)
Theorem C55_only_configured_refuted : exists s, reached E0 add2 s /\
  nr_valid (tab_of s) (k_silent (n_cfg s)) 127 = (2%nat, AWAKE, 1) /\ type_valid (tab_of s) [0] = (ERR_OK, 2%nat) /\ in_use (modat s 2) = false.
Proof. exists (after add2). ex. Qed.
Print Assumptions C55_only_configured_refuted.

Example C55_case : let tab := tab_of (after add2) in let silent := k_silent (n_cfg (after add2)) in
  type_valid tab [109; 111; 100; 50; 0] = (ERR_OK, 1%nat) /\ nr_valid tab silent 20 = (1%nat, AWAKE, 1) /\ module_valid tab [109; 111; 100; 50; 0] 20 = (ERR_OK, 1%nat) /\
  module_valid tab [109; 111; 100; 50; 0] 10 = (E_MODULE_NOT_FOUND, 0%nat) /\ nr_valid tab silent 30 = (7%nat, AWAKE, 0) /\ terminated tab.
Proof.
  cbn zeta. ex. unfold terminated. apply Forall_forall. intros m Hm. apply Nat.leb_le. revert m Hm. apply forallb_forall. vm_compute. reflexivity.
Qed.
