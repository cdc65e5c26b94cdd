(** Properties C17 (identifiers after a number change), C28 to C34: the module table, module numbers, message objects. *)
From Verif Require Import Words ErrModel NodeModel NodeSpec NodeEx NodeCfg.

(** C28: in every history without number and type changes, the k-th addition occupies position k - 1 with its type, objects
    and pointers, all other entries are unused, and an addition is refused (changing nothing) iff the table is full. *)
Theorem C28_positions : forall E ops s, Forall (plain E) ops -> reached E ops s ->
  (forall p d nr rxs txs, (p < MAXM E)%nat -> nth_error (adds ops) p = Some (d, nr, rxs, txs) ->
     in_use (modat s p) = true /\ configured_as (modat s p) d rxs txs) /\
  (forall p, (length (adds ops) <= p)%nat -> (p < MAXM E)%nat -> in_use (modat s p) = false).
Proof. exact positions. Qed.
Print Assumptions C28_positions.
Theorem C28_refused_when_full : forall E ops s d nr rxs txs e s', Forall (plain E) ops -> reached E ops s ->
  add_module E d nr rxs txs s = Ret (e, s') ->
  (length (adds ops) < MAXM E)%nat /\ e <> E_MAX_MODULES \/
  (MAXM E <= length (adds ops))%nat /\ e = E_MAX_MODULES /\ s' = s.
Proof. exact refused. Qed.
Print Assumptions C28_refused_when_full.

Definition add8 : list op := map (fun k => OpAdd (desc (49 + k) 1 1) (10 + k) [0;0;0;0]%nat [1;0;0;0]%nat) [0;1;2;3;4;5;6;7].
Example C28_case : let ops := add2 ++ [OpFrame MO_PROCESS 1 0 [] 0] in
  Forall (plain E0) ops /\ reached E0 ops (after ops) /\ length (adds ops) = 2%nat /\
  map (fun p => in_use (modat (after ops) p)) [0;1;2]%nat = [true; true; false] /\ m_type (modat (after ops) 1) = [109; 111; 100; 50; 0] /\
  Forall (plain E0) add8 /\ reached E0 add8 (after add8) /\ add_module E0 (desc 65 1 1) 30 [] [] (after add8) = Ret (E_MAX_MODULES, after add8).
Proof. cbn zeta. ex. Qed.

(** C29: the configured modules have pairwise different numbers after every such history; an added module gets the requested
    number if it lies in 2..124 and no earlier entry has it, a default number otherwise; reuse is reported. *)
Theorem C29_pairwise_different : forall E ops s p q, Forall (plain E) ops -> reached E ops s ->
  (p < q)%nat -> (q < MAXM E)%nat -> in_use (modat s p) = true -> in_use (modat s q) = true -> m_nr (modat s p) <> m_nr (modat s q).
Proof. exact different. Qed.
Print Assumptions C29_pairwise_different.
Theorem C29_number_given : forall E pre s d nr rxs txs e s' i, reached E pre s -> next_pos s = Some i ->
  add_module E d nr rxs txs s = Ret (e, s') ->
  m_nr (modat s' i) = given_nr s i nr /\ (forall q, q <> i -> m_nr (modat s' q) = m_nr (modat s q)) /\
  (e = E_REDECLARED_NR /\ (exists q, (q < i)%nat /\ m_nr (modat s q) = nr) \/ e = ERR_OK /\ forall q, (q < i)%nat -> m_nr (modat s q) <> nr).
Proof. exact given_reached. Qed.
Print Assumptions C29_number_given.

Example C29_case :
  let more := [OpAdd (desc 51 1 1) 10 [] []; OpAdd (desc 52 1 1) 1 [] []; OpAdd (desc 53 1 1) 124 [] []] in let ops := add2 ++ more in
  Forall (plain E0) ops /\ reached E0 ops (after ops) /\ map (fun p => m_nr (modat (after ops) p)) [0;1;2;3;4]%nat = [10; 20; 127; 128; 124] /\
  map (fun p => in_use (modat (after ops) p)) [0;1;2;3;4]%nat = [true; true; true; true; true] /\
  next_pos (after add2) = Some 2%nat /\ given_nr (after add2) 2 10 = 127 /\
  (match add_module E0 (desc 51 1 1) 10 [] [] (after add2) with Ret (e, _) => e =? E_REDECLARED_NR | _ => false end) = true.
Proof. cbn zeta. ex. Qed.

(** C30: refuted: without a validator a number change to a number in use is accepted, and two configured modules then have
    the same number. The numbers stay different if every requested number is in 2..124 and not in use. *)
Theorem C30_unique_refuted : exists s, reached E0 (add2 ++ [sysmsg 10 [32;0;20;0;0;30;116;222]]) s /\
  in_use (modat s 0) = true /\ in_use (modat s 1) = true /\ m_nr (modat s 0) = 20 /\ m_nr (modat s 1) = 20.
Proof. exists (after (add2 ++ [sysmsg 10 [32;0;20;0;0;30;116;222]])). ex. Qed.
Print Assumptions C30_unique_refuted.
Theorem C30_fresh_numbers_partial : forall E pre ops s s' p q, Forall (plain E) pre -> reached E pre s -> run_with E (careful E) ops s s' ->
  (p < q)%nat -> (q < MAXM E)%nat -> in_use (modat s' p) = true -> in_use (modat s' q) = true -> m_nr (modat s' p) <> m_nr (modat s' q).
Proof. exact different_careful. Qed.
Print Assumptions C30_fresh_numbers_partial.

Example C30_case :
  let f := sysmsg 10 [32;0;30;0;0;30;116;222] in let g := OpSetNr [109; 111; 100; 50; 0] 40 20 in
  reached E0 add2 (after add2) /\ Forall (plain E0) add2 /\ run_with E0 (careful E0) [f; g] (after add2) (after (add2 ++ [f; g])) /\
  map (fun p => m_nr (modat (after (add2 ++ [f; g])) p)) [0;1]%nat = [30; 40].
Proof.
  cbn zeta. ex. cbn [run_with]. assert (forall s new, forallb (fun p => negb (in_use (modat s p)) || negb (m_nr (modat s p) =? new)) (seq 0 (length (tab_of s))) = true -> 2 <= new <= 124 -> fresh_nr s new) as K.
  { intros s new H Hn. split; [exact Hn|]. intros p Lp Up. rewrite forallb_forall in H. specialize (H p ltac:(apply in_seq; lia)). rewrite Up in H. apply negb_true_iff, N.eqb_neq in H. exact H. }
  split; [right; exists 30; split; [reflexivity|apply K; [vm_compute; reflexivity|lia]]|]. eexists. split; [apply after_step; vm_compute; reflexivity|].
  split; [right; exists 40; split; [reflexivity|apply K; [vm_compute; reflexivity|lia]]|]. eexists. split; [|reflexivity].
  match goal with |- _ = Ret (_, after (add2 ++ [?f; ?g])) => change (add2 ++ [f; g]) with ((add2 ++ [f]) ++ [g]) end. apply after_step. vm_compute. reflexivity.
Qed.

(** C31: refuted: the function that changes number and identifiers writes behind the table if no entry has the given type
    and number: undefined behaviour in every state. *)
Theorem C31_unknown_module_refuted : forall E type new actual s, named s type actual = None -> step E (OpSetNr type new actual) s = Undef.
Proof. exact unknown_nr. Qed.
Print Assumptions C31_unknown_module_refuted.

Example C31_case : named (after add2) [109; 111; 100; 57; 0] 10 = None /\ step E0 (OpSetNr [109; 111; 100; 57; 0] 11 10) (after add2) = Undef.
Proof. ex. Qed.

(** C17: after a number change by message either the new number is in force for all identifiers of the module, or an error
    was reported: the receive objects listen to the new identifiers, the transmit objects send with them, the
    control message object listens to the new number, and no other module loses its objects. *)
Theorem C17_identifiers_follow : forall E pre mo id dlc data now s s' q, env_ok E -> reached E pre s ->
  step E (OpFrame mo id dlc data now) s = Ret (tt, s') -> m_nr (modat s' q) <> m_nr (modat s q) -> 1 <= byte_at data 2 -> byte_at data 2 < 8000 -> complete E s q ->
  reported s s' \/
  (n_err s' = n_err s /\ complete E s' q /\ (forall p, p <> q -> complete E s p -> complete E s' p) /\
   (forall o, (o < m_ntx (modat s' q))%nat -> tx_ident s' q o = data_tx_id (byte_at data 2) o) /\
   (forall nr, 1 <= nr <= 128 -> nr = 1 \/ (exists p, (p < nmod s')%nat /\ m_nr (modat s' p) = nr) -> hears E s' nr)).
Proof. intros E pre mo id dlc data now s s' q HE. exact (number_effect E HE pre mo id dlc data now s s' q). Qed.
Print Assumptions C17_identifiers_follow.

Example C17_follow_case : let f := sysmsg 10 [32;0;30;0;0;30;116;222] in let s := after add2 in let s' := after (add2 ++ [f]) in
  env_ok E0 /\ reached E0 add2 s /\ step E0 f s = Ret (tt, s') /\ m_nr (modat s' 0) = 30 /\ m_nr (modat s 0) = 10 /\ complete E0 s 0 /\
  n_err s' = n_err s /\ nth (rx_mo s' 0 0) (h_filt (n_hw s')) None = Some (628, 2047) /\ tx_ident s' 0 1 = 1141.
Proof.
  cbn zeta. split; [exact E0_ok|]. ex. split; [vm_compute; lia|]. split.
  - intros i Hi. assert (i = 0)%nat as -> by (vm_compute in Hi; lia). split; [vm_compute; auto|]. split; vm_compute; reflexivity.
  - intros _. split; vm_compute; reflexivity.
Qed.

(** C32: after an addition without error and after a number change (by the application or by message, see C17), the
    filters accept the system messages and asynchronous data for number 1 (broadcast) and all configured modules;
    operations that change no number leave the filters. Numbers above 128 do not fit into an identifier. *)
Theorem C32_after_addition : forall E d nr rxs txs pre s s' i, env_ok E -> reached E pre s -> step E (OpAdd d nr rxs txs) s = Ret (tt, s') -> next_pos s = Some i ->
  reported s s' \/
  (n_err s' = n_err s /\ forall nr', 1 <= nr' <= 128 -> nr' = 1 \/ (exists p, (p <= i)%nat /\ m_nr (modat s' p) = nr') -> hears E s' nr').
Proof. intros E d nr rxs txs pre s s' i HE. exact (hears_added E HE d nr rxs txs pre s s' i). Qed.
Print Assumptions C32_after_addition.
Theorem C32_after_number_change : forall E pre type new actual s s' p, env_ok E -> reached E pre s -> named s type actual = Some p ->
  1 <= new -> new < 8000 -> complete E s p -> change_nr_ids E type new actual s = Ret (ERR_OK, s') ->
  complete E s' p /\ m_nr (modat s' p) = new /\ (forall q, q <> p -> m_nr (modat s' q) = m_nr (modat s q)) /\
  (forall q, q <> p -> complete E s q -> complete E s' q) /\
  (forall o, (o < m_ntx (modat s' p))%nat -> tx_ident s' p o = data_tx_id new o) /\
  (forall nr, 1 <= nr <= 128 -> nr = 1 \/ (exists q, (q < nmod s')%nat /\ m_nr (modat s' q) = nr) -> hears E s' nr).
Proof. intros E pre type new actual s s' p HE. exact (set_nr_effect E HE pre type new actual s s' p). Qed.
Print Assumptions C32_after_number_change.
Theorem C32_kept : forall E o s s' nr, plain E o -> (forall d nr rxs txs, o <> OpAdd d nr rxs txs) -> step E o s = Ret (tt, s') -> hears E s nr -> hears E s' nr.
Proof. exact hears_kept. Qed.
Print Assumptions C32_kept.

Example C32_case : let pre := removelast add2 in let o := nth 1 add2 (OpBaud 0) in let g := OpSetNr [109; 111; 100; 50; 0] 40 20 in
  reached E0 pre (after pre) /\ next_pos (after pre) = Some 1%nat /\ step E0 o (after pre) = Ret (tt, after (pre ++ [o])) /\ n_err (after (pre ++ [o])) = n_err (after pre) /\
  nth MO_SYS1 (h_filt (n_hw (after (pre ++ [o])))) None = Some (2, 1939) /\ hears E0 (after (pre ++ [o])) 20 /\ ~ hears E0 (after (pre ++ [o])) 40 /\
  step E0 g (after (pre ++ [o])) = Ret (tt, after (pre ++ [o; g])) /\ hears E0 (after (pre ++ [o; g])) 40.
Proof.
  cbn zeta. ex; try (split; [vm_compute; reflexivity|split; intros _; vm_compute; reflexivity]).
  intros (H & _). vm_compute in H. discriminate.
Qed.

(** C33: an addition either reports an error, or gives the module message objects that were free and are not the reserved
    ones, and (if no earlier addition failed, that is the number of modules equals the position) makes it complete:
    every object is registered for it and listens to its identifier. Complete modules never share a message object, and stay complete until their number or type is
    changed. With no free message object an addition that needs one is reported. *)
Theorem C33_addition : forall E d nr rxs txs pre s s' i, env_ok E -> reached E pre s -> next_pos s = Some i -> step E (OpAdd d nr rxs txs) s = Ret (tt, s') ->
  (n_err s' = n_err s /\ nmod s' = S (nmod s) /\ (nmod s = i -> complete E s' i) /\
   (forall j, (j < m_nrx d)%nat ->
      taken s (rx_mo s' i j) = false /\ (rx_mo s' i j < NMSG E)%nat /\ ~ In (rx_mo s' i j) (fixed_mo E) /\ registered s' (rx_mo s' i j) i) /\
   (ASY E = true -> taken s (ctl_mo s' (nmod s)) = false /\ (ctl_mo s' (nmod s) < NMSG E)%nat /\ ~ In (ctl_mo s' (nmod s)) (fixed_mo E))) \/ reported s s'.
Proof. intros E d nr rxs txs pre s s' i HE. exact (addition E HE d nr rxs txs pre s s' i). Qed.
Print Assumptions C33_addition.
Theorem C33_not_shared : forall E pre s p q, env_ok E -> reached E pre s -> complete E s p -> complete E s q ->
  (forall i j, (i < m_nrx (modat s p))%nat -> (j < m_nrx (modat s q))%nat -> rx_mo s p i = rx_mo s q j -> p = q /\ i = j) /\
  (ASY E = true -> (forall i, (i < m_nrx (modat s p))%nat -> rx_mo s p i <> ctl_mo s q) /\
     (1 <= m_nr (modat s p) -> 1 <= m_nr (modat s q) -> m_nr (modat s p) <> m_nr (modat s q) -> ctl_mo s p <> ctl_mo s q)) /\
  (forall i, (i < m_nrx (modat s p))%nat -> ~ In (rx_mo s p i) (fixed_mo E)) /\ (ASY E = true -> ~ In (ctl_mo s p) (fixed_mo E)).
Proof. intros E pre s p q HE. exact (no_sharing E HE pre s p q). Qed.
Print Assumptions C33_not_shared.
Theorem C33_kept : forall E pre o s s' p, env_ok E -> reached E pre s -> plain E o -> step E o s = Ret (tt, s') -> in_use (modat s p) = true -> complete E s p -> complete E s' p.
Proof. intros E pre o s s' p HE. exact (complete_kept E HE pre o s s' p). Qed.
Print Assumptions C33_kept.
Theorem C33_none_left : forall E d nr rxs txs pre s s', env_ok E -> reached E pre s -> step E (OpAdd d nr rxs txs) s = Ret (tt, s') -> next_pos s <> None ->
  (forall mo, (mo < NMSG E)%nat -> taken s mo = true) -> (0 < m_nrx d)%nat \/ ASY E = true -> reported s s'.
Proof. intros E d nr rxs txs pre s s' HE. exact (no_object E HE d nr rxs txs pre s s'). Qed.
Print Assumptions C33_none_left.

Definition add_many : list op := map (fun k => OpAdd (desc (49 + k) 4 1) (10 + k) [0;1;2;3]%nat [1;0;0;0]%nat) [0;1;2;3;4] ++ [OpAdd (desc 79 1 1) 29 [0]%nat []].
Example C33_case : let pre := removelast add2 in let o := nth 1 add2 (OpBaud 0) in let s := after pre in let s' := after (pre ++ [o]) in
  env_ok E0 /\ reached E0 pre s /\ next_pos s = Some 1%nat /\ nmod s = 1%nat /\ step E0 o s = Ret (tt, s') /\ n_err s' = n_err s /\
  [rx_mo s' 0 0; rx_mo s' 1 0; rx_mo s' 1 1; ctl_mo s' 0; ctl_mo s' 1] = [1; 5; 7; 4; 8]%nat /\
  let t := after add_many in let f := OpAdd (desc 80 1 1) 30 [0]%nat [] in
  reached E0 add_many t /\ forallb (taken t) (seq 0 32) = true /\ next_pos t = Some 6%nat /\ step E0 f t = Ret (tt, after (add_many ++ [f])) /\
  n_err (after (add_many ++ [f])) <> n_err t.
Proof.
  cbn zeta. split; [exact E0_ok|]. ex. vm_compute. discriminate.
Qed.

(** C34: in every history the module a received frame is dispatched to is the one its message object is registered for;
    a frame with the identifier and length of a receive object of a complete module is accepted for exactly this object;
    a frame on an object registered for no module changes nothing. *)
Theorem C34_owner : forall E pre s mo p, reached E pre s -> (owner s mo = Some p <-> registered s mo p).
Proof. exact owner_registered. Qed.
Print Assumptions C34_owner.
Theorem C34_dispatched : forall E pre s p i dlc data now, reached E pre s -> complete E s p -> (i < m_nrx (modat s p))%nat ->
  1 <= m_nr (modat s p) -> m_nr (modat s p) < 8000 -> dlc = r_dlc_s (rxat (modat s p) i) ->
  accepted E s (OpFrame (rx_mo s p i) (data_rx_id (m_nr (modat s p)) i) dlc data now) p i = true.
Proof. exact dispatched. Qed.
Print Assumptions C34_dispatched.
Theorem C34_unregistered : forall E mo id dlc data now s, owner s mo = None -> mo <> MO_PROCESS -> sys_mo E mo = false ->
  step E (OpFrame mo id dlc data now) s = Ret (tt, s).
Proof. exact unregistered. Qed.
Print Assumptions C34_unregistered.

Example C34_case : let s := after add2 in
  reached E0 add2 s /\ owner s mo_2_1 = Some 1%nat /\ owner s 20 = None /\ sys_mo E0 20 = false /\
  accepted E0 s (rx_frame mo_2_1 20 1 [1;2;3;4;5;6;7;8]) 1 1 = true /\ step E0 (OpFrame 20 100 8 [] 0) s = Ret (tt, s).
Proof.
  cbn zeta. assert (step E0 (OpFrame 20 100 8 [] 0) (after add2) = Ret (tt, after add2)) as H by (apply C34_unregistered; [vm_compute; reflexivity|discriminate|reflexivity]).
  do 5 (split; [ex|]). exact H.
Qed.
