(** C116: the bit rate the application reads is the one on the bus. *)
From Verif Require Import Words ErrModel NodeModel NodeSpec NodeEx RateModel RateSpec Rate.

(** C116: in every reachable state the rate stored for the boot loader is the one the controller runs at. *)
Theorem C116_loader_partial : forall E ops s, reached E ops s -> loader_rate s = bus_rate s.
Proof. intros E ops s R. exact (saved_reached E ops s R). Qed.
Print Assumptions C116_loader_partial.
(** C116: as long as the application sets the rate only before the start or while the node is stopped, whatever else
    happens, system messages that change the rate included: the rate it reads is the one the controller runs at; it is 0
    as long as none was set. *)
Theorem C116_read_partial : forall E ops s0 s, booted E s0 -> run_with E rate_at_rest ops s0 s ->
  match bus_rate s with None => get_baudrate s = 0 | Some r => get_baudrate s = r end.
Proof.
  intros E ops s0 s B H. assert (rt s = (0, None, None) \/ exists r, rt s = (r, Some r, Some r)) as [Q|[r Q]].
  { eapply (told_run E ops []); [exists s0; split; [exact B|reflexivity]|left; exact (rt_booted E s0 B)|exact H]. }
  - unfold rt in Q. injection Q as Q1 Q2 Q3. unfold bus_rate, get_baudrate. rewrite Q2. exact Q1.
  - unfold rt in Q. injection Q as Q1 Q2 Q3. unfold bus_rate, get_baudrate. rewrite Q2. exact Q1.
Qed.
Print Assumptions C116_read_partial.
(** C116: setting one of the four rates before the start or while stopped takes effect: on the bus, for the reader and
    for the boot loader. *)
Theorem C116_set_partial : forall E pre r s s', reached E pre s -> (h_mode (n_hw s) = MODE_INIT \/ h_mode (n_hw s) = MODE_STOPPED) ->
  r = 125 \/ r = 250 \/ r = 500 \/ r = 1000 -> step E (OpBaud r) s = Ret (tt, s') ->
  bus_rate s' = Some r /\ get_baudrate s' = r /\ loader_rate s' = Some r.
Proof.
  intros E pre r s s' R Hm Hr H. assert (In r RATES) as Hi by (unfold RATES; cbn; intuition).
  pose proof (set_at_rest E pre r s s' R Hm Hi H) as Q. unfold rt in Q. injection Q as Q1 Q2 Q3. repeat split; assumption.
Qed.
Print Assumptions C116_set_partial.
(** The hypotheses are met: a rate is set before the start, the node starts, and a system message changes the rate. *)
Example C116_case : let ops := add2 ++ [OpBaud 250; OpMode MODE_OPERATIONAL; sysmsg 1 [2;1;244;0;0;0;0;0]] in
  reached E0 ops (after ops) /\ run_with E0 rate_at_rest ops boot0 (after ops) /\ h_mode (n_hw (after ops)) = MODE_OPERATIONAL /\
  bus_rate (after ops) = Some 500 /\ get_baudrate (after ops) = 500 /\ loader_rate (after ops) = Some 500.
Proof.
  cbv zeta. split; [simple apply reached_after; vm_compute; reflexivity|]. split; [|repeat split; vm_compute; reflexivity].
  unfold add2. cbn [app run_with].
  repeat (split; [(exact I) || (left; vm_compute; reflexivity)|]; eexists; split; [vm_compute; reflexivity|]). vm_compute; reflexivity.
Qed.
(** C116, finding: a rate set while the node is running is refused with an error, the bus keeps its rate, and yet the
    application reads the refused rate from then on. *)
Theorem C116_running_refuted : let ops := [OpBaud 250; OpMode MODE_OPERATIONAL] in
  reached E0 ops (after ops) /\
  exists e s', set_baudrate 500 (after ops) = Ret (e, s') /\ e <> ERR_OK /\ step E0 (OpBaud 500) (after ops) = Ret (tt, s') /\
  bus_rate s' = Some 250 /\ loader_rate s' = Some 250 /\ get_baudrate s' = 500.
Proof.
  cbv zeta. split; [simple apply reached_after; vm_compute; reflexivity|]. do 2 eexists. split; [vm_compute; reflexivity|]. split; [discriminate|].
  repeat split; vm_compute; reflexivity.
Qed.
Print Assumptions C116_running_refuted.
