(** Vocabulary of the node properties: start state, reachable states, frames, receptions, verdicts. *)
From Verif Require Import Words ErrModel NodeModel.

(** sane build-time configuration: at most 8 modules (the send register has 32 bits), at most 32 message
    objects (the object masks have 32 bits) and at least the reserved ones, 16-bit maximum period *)
Definition env_ok (E : env) : Prop :=
  (1 <= MAXM E <= 8)%nat /\ (11 <= NMSG E <= 32)%nat /\ PMAX E < 65536 /\ length (JUNK E) = 8%nat /\
  SERIAL E < 4294967296.

(** [s] is the state after a successful li_can_slv_init, with any application memory, error memory,
    start-up bit rate and future hardware behaviour *)
Definition booted (E : env) (s : node) : Prop :=
  exists mem st orc rate, can_init E rate (static_node E mem st orc) = Ret (ERR_OK, s).
(** [s] is reached after the operations [ops] *)
Definition reached (E : env) (ops : list op) (s : node) : Prop :=
  exists s0, booted E s0 /\ run E ops s0 = Ret (tt, s).

(** a process request with its data length and the tick at which it is handled *)
Definition request (dlc now : N) : op := OpFrame MO_PROCESS ID_PROCESS dlc [] now.
Definition is_request (o : op) : bool :=
  match o with OpFrame mo _ _ _ _ => (mo =? MO_PROCESS)%nat | _ => false end.

(** the events added by a step *)
Definition added (s s' : node) (new : list event) : Prop := n_log s' = n_log s ++ new.

(** verdicts and whole-image hooks in a list of events *)
Fixpoint verdicts (l : list event) : list (nat * bool) :=
  match l with
  | [] => []
  | EvVerdict pos v _ _ :: t => (pos, v) :: verdicts t
  | _ :: t => verdicts t
  end.
Fixpoint image_hooks (l : list event) : nat :=
  match l with
  | [] => O
  | EvImage _ _ :: t => S (image_hooks t)
  | _ :: t => image_hooks t
  end.
(** tick of the last whole-image hook, of the last valid verdict of a module *)
Fixpoint last_image (l : list event) (acc : N) : N :=
  match l with
  | [] => acc
  | EvImage _ now :: t => last_image t now
  | _ :: t => last_image t acc
  end.
Fixpoint last_valid (pos : nat) (l : list event) (acc : N) : N :=
  match l with
  | [] => acc
  | EvVerdict p true _ now :: t => last_valid pos t (if (p =? pos)%nat then now else acc)
  | _ :: t => last_valid pos t acc
  end.

(** the module a message object was registered for *)
Definition owner (s : node) (mo : nat) : option nat :=
  option_map snd (find (fun e => (fst e =? mo)%nat) (h_rxtab (n_hw s))).
(** number of receive objects of a module that take part in the process image (0 while silent) *)
Definition listening (s : node) (pos : nat) : nat := m_nrx_s (modat s pos).

(** in state [s] operation [o] is a data frame accepted for object [obj] of module [pos] *)
Definition accepted (E : env) (s : node) (o : op) (pos obj : nat) : bool :=
  match o with
  | OpFrame mo id dlc _ _ =>
      is_sync_mo mo s &&
      (match owner s mo with Some p => (p =? pos)%nat | None => false end) &&
      (N.to_nat (id mod 4) =? obj)%nat &&
      (negb (CHK E) || ((rx_nr id =? m_nr (modat s pos)) && (dlc =? r_dlc_s (rxat (modat s pos) obj))))
  | _ => false
  end.
(** how often object [obj] of module [pos] is received while [ops] are executed from [s] *)
Fixpoint receptions (E : env) (s : node) (ops : list op) (pos obj : nat) : nat :=
  match ops with
  | [] => O
  | o :: rest =>
      ((if accepted E s o pos obj then 1 else 0) +
       match step E o s with Ret (_, s') => receptions E s' rest pos obj | _ => 0 end)%nat
  end.

(** [o] is a status request the node has to handle: on a system message object, DLC 8, command 1, and either
    broadcast (module number 1) to a node with modules or directed to a number in the table *)
Definition is_status (E : env) (s : node) (o : op) : bool :=
  match o with
  | OpFrame mo id dlc data _ =>
      ((mo =? MO_SYS1)%nat || SYS2 E && (mo =? MO_SYS2)%nat) &&
      ((dlc =? 8) && (nth 0 data 0 =? 1) &&
       (if (id / 4) mod 128 =? 0 then negb (nmod s =? 0)%nat
        else existsb (fun m => m_nr m =? (id / 4) mod 128 + 1) (tab_of s)))
  | _ => false
  end.

(** no process request among the operations *)
Definition no_requests (ops : list op) : Prop := forallb (fun o => negb (is_request o)) ops = true.
(** the main loop trigger of the period; the two "first request" events; number of events of a kind *)
Definition is_trigger (o : op) : bool := match o with OpProcess _ => true | _ => false end.
Definition is_freq (e : event) : bool := match e with EvFirstReq _ => true | _ => false end.
Definition is_fstat (e : event) : bool := match e with EvFirstStatus _ => true | _ => false end.
Definition num (p : event -> bool) (l : list event) : nat := length (filter p l).

(** ** system messages *)
(** frames given to the transmit FIFO: identifier, DLC, data *)
Fixpoint sent (l : list event) : list (N * N * list byte) :=
  match l with
  | [] => []
  | EvTx id dlc data _ :: t => (id, dlc, data) :: sent t
  | _ :: t => sent t
  end.
(** message objects for system messages, the module number in the identifier *)
Definition sys_mo (E : env) (mo : nat) : bool := (mo =? MO_SYS1)%nat || SYS2 E && (mo =? MO_SYS2)%nat.
Definition id_nr (id : N) : N := (id / 4) mod 128 + 1.
(** first table entry (configured or not) with a number *)
Definition entry_of_nr (s : node) (nr : N) : option nat :=
  find (fun p => m_nr (modat s p) =? nr) (seq 0 (length (tab_of s))).
Definition awake (s : node) (pos : nat) : bool := silat s pos =? AWAKE.
(** frames with the system identifier of number [nr] leave the node iff the first entry with that number is awake *)
Definition speaks (s : node) (nr : N) : bool :=
  match entry_of_nr s nr with Some p => awake s p | None => false end.
Definition sys_tx_id (nr : N) : N := 3 + 4 * (nr - 1).
(** configured modules have different numbers *)
Definition numbers_differ (s : node) : Prop :=
  forall i j, (i < j)%nat -> (j < nmod s)%nat -> m_nr (modat s i) <> m_nr (modat s j).
(** all numbers in the table are non-zero bytes *)
Definition numbers_ok (s : node) : Prop := forall i, (i < length (tab_of s))%nat -> 1 <= m_nr (modat s i) <= 255.

(** big-endian value of a byte list *)
Definition be (l : list byte) : N := fold_left (fun a x => a * 256 + x) l 0.
Definition byte_at (l : list byte) (i : nat) : N := nth i l 0.

(** what a reader gets that reads the error memory until it is empty *)
Fixpoint pending_n (n : nat) (st : errstore) : list entry :=
  match n with
  | O => []
  | S k => if (es_count st =? 0)%nat then [] else
           match es_get st with
           | Some (st', (e, r)) => (if e =? ERR_OK then match r with Some x => [x] | None => [] end else []) ++ pending_n k st'
           | None => []
           end
  end.
Definition pending_errors (st : errstore) : list entry := pending_n (es_count st) st.
(** the frame announcing an error: sent under the recorded module number, or the main module's if that is no
    valid number *)
Definition error_nr (s : node) (e : entry) : N :=
  if (2 <=? e_module e) && (e_module e <=? 124) then e_module e else m_nr (modat s 0).
Definition error_tx (s : node) (e : entry) : list (N * N * list byte) :=
  if speaks s (error_nr s e) then [(sys_tx_id (error_nr s e), 8, error_frame e)] else [].

(** everything except error memory, hardware outcomes and log is the same *)
Definition only_tx (s s' : node) : Prop :=
  n_cfg s' = n_cfg s /\ n_tx s' = n_tx s /\ n_hw s' = n_hw s /\ n_sync s' = n_sync s /\ n_sys s' = n_sys s /\ n_mem s' = n_mem s.

(** k-th byte of a number, lowest first *)
Definition byte_n (x : N) (k : N) : N := (x / 256 ^ k) mod 256.
(** the first four characters of a module type, padded with zeros after its end *)
Definition type4 (type : list byte) : list byte :=
  map (fun i => if existsb (N.eqb 0) (firstn i type) then 0 else nth i type 0) (seq 0 4).
(** answers to a status and to a version request *)
Definition status_tx (E : env) (s : node) (pos : nat) : N * N * list byte :=
  (sys_tx_id (m_nr (modat s pos)), 8,
   [4] ++ type4 (m_type (modat s pos)) ++ [byte_n (SERIAL E) 2; byte_n (SERIAL E) 1; byte_n (SERIAL E) 0]).
Definition version_tx (E : env) (s : node) (pos : nat) : list (N * N * list byte) :=
  [(sys_tx_id (m_nr (modat s pos)), 8,
    [5; byte_n (BOOTMAJ E) 0; byte_n (BOOTMIN E) 1; byte_n (BOOTMIN E) 0; 0; byte_n (SWMAJ E) 0; byte_n (SWMIN E) 1; byte_n (SWMIN E) 0]);
   (sys_tx_id (m_nr (modat s pos)), 8,
    [6; byte_n (IDENT E) 3; byte_n (IDENT E) 2; byte_n (IDENT E) 1; byte_n (IDENT E) 0;
     byte_n (CHANGEIDX E) 2; byte_n (CHANGEIDX E) 1; byte_n (CHANGEIDX E) 0])].
(** what the awake modules among [l] say *)
Definition of_awake {A} (s : node) (f : nat -> list A) (l : list nat) : list A :=
  flat_map (fun i => if awake s i then f i else []) l.

(** ** silent and awake modules *)
(** apply [f] to the first [n] elements *)
Definition mapfirst {A} (n : nat) (f : A -> A) (l : list A) : list A := map f (firstn n l) ++ skipn n l.
(** a module that takes no part in the synchronous process, resp. takes part with its configuration *)
Definition silenced (m : modl) : modl :=
  Modl (m_type m) (m_nr m) (m_nrx m) 0 (m_ntx m) 0
       (mapfirst (m_nrx m) (fun o => RxO (r_addr o) (r_dlc o) (r_conv o) 0 (Some rx_dummy) (r_mo o)) (m_rx m))
       (mapfirst (m_ntx m) (fun o => TxO (t_addr o) (t_dlc o) (t_conv o) 0 (Some tx_dummy)) (m_tx m)).
Definition awakened (m : modl) : modl :=
  Modl (m_type m) (m_nr m) (m_nrx m) (m_nrx m) (m_ntx m) (m_ntx m)
       (mapfirst (m_nrx m) (fun o => RxO (r_addr o) (r_dlc o) (r_conv o) (r_dlc o) (r_conv o) (r_mo o)) (m_rx m))
       (mapfirst (m_ntx m) (fun o => TxO (t_addr o) (t_dlc o) (t_conv o) (t_dlc o) (t_conv o)) (m_tx m)).
(** is the cyclic transmission of an object switched on *)
Definition cyclic (s : node) (pos obj : nat) : bool := N.testbit (x_reg (n_tx s)) (N.of_nat (4 * pos + obj)).
(** the conversions of all-zero frames into the application's receive objects *)
Fixpoint zeroed (l : list rxo) (mem : list (list byte)) : list (list byte) :=
  match l with
  | [] => mem
  | o :: t => zeroed t (match r_conv o with
                        | Some g => set_nth mem (r_addr o) (fst (g (repeat 0 8) (nth (r_addr o) mem []) (r_dlc o)))
                        | None => mem end)
  end.
(** position of the first module with that type and number; effect of a silent/awake message *)
Definition named (s : node) (type : list byte) (nr : N) : option nat :=
  find (fun p => strn_eq 5 type (m_type (modat s p)) && (m_nr (modat s p) =? nr)) (seq 0 (length (tab_of s))).
(** a frame carries the serial number in bytes 5 to 7, the first four characters of the type from byte 1 *)
Definition has_serial (E : env) (data : list byte) : bool :=
  SERIAL E =? byte_at data 5 mod 256 * 65536 + byte_at data 6 mod 256 * 256 + byte_at data 7 mod 256.
Definition has_type (s : node) (pos : nat) (data : list byte) : bool := strn_eq 4 (m_type (modat s pos)) (tl data).

(** [st'] is [st] after some reports of non-zero errors under number [nr] *)
Inductive reports (nr : N) : errstore -> errstore -> Prop :=
| rep_nil st : reports nr st st
| rep_cons st st1 st2 e r : e <> ERR_OK -> syserr_send st e LVL_INFO nr = Some (st1, r) -> reports nr st1 st2 -> reports nr st st2.

(** commands with an effect; commands that need the serial number; state asked for by stay-silent and awake *)
Definition known_cmd (x : N) : bool := existsb (N.eqb x) [1; 2; 5; 7; 8; 32; 33; 34; 48; 49].
Definition needs_serial (x : N) : bool := (x =? 32) || (x =? 33) || (x =? 34) || (x =? 49).
Definition silent_cmd (x : N) : option N := if x =? 33 then Some SILENT else if x =? 34 then Some AWAKE else None.
Definition listen_only (s : node) : bool := h_mode (n_hw s) =? MODE_LISTEN_ONLY.
(** the modules addressed by an identifier: all for the broadcast number 1, else the one with that number *)
Definition addressed (s : node) (id : N) (l : list nat) : Prop :=
  (id_nr id = 1 /\ nmod s <> 0%nat /\ l = seq 0 (nmod s)) \/ (id_nr id <> 1 /\ exists p, (p < nmod s)%nat /\ id_nr id = m_nr (modat s p) /\ l = [p]).
(** the identifier addresses something in this node *)
Definition heard (s : node) (id : N) : bool := if id_nr id =? 1 then negb (nmod s =? 0)%nat else match entry_of_nr s (id_nr id) with Some _ => true | None => false end.
(** outcomes of the next two hardware calls; the rate in a baud rate message *)
Definition ok1 (s : node) : bool := hd true (n_orc s).
Definition ok2 (s : node) : bool := hd true (tl (n_orc s)).
(** the rates the interface knows *)
Definition known_rate (r : N) : bool := (r =? 125) || (r =? 250) || (r =? 500) || (r =? 1000).
Definition frame_rate (data : list byte) : N := be [byte_at data 1; byte_at data 2].

(** ** process data *)
(** a table entry is in use; operations that neither change a module number nor a module type, and that put only
    configured modules to sleep or awake *)
Definition in_use (m : modl) : bool := negb (hd 0 (m_type m) =? 0).
Definition plain (E : env) (o : op) : Prop :=
  match o with
  | OpFrame mo _ _ data _ =>
      sys_mo E mo = true -> byte_at data 0 <> 32 /\ byte_at data 0 <> 49 /\
      (byte_at data 0 = 33 \/ byte_at data 0 = 34 -> byte_at data 1 <> 0)
  | OpSetNr _ _ _ | OpTakePart _ _ => False
  | OpSilent type _ st => hd 0 type <> 0 /\ (st = SILENT \/ st = AWAKE)
  | _ => True
  end.
(** the objects sent in a cycle: the transmit objects of the modules that are awake, in table order *)
Definition enabled (s : node) : list (nat * nat) :=
  flat_map (fun p => if awake s p then map (fun o => (p, o)) (seq 0 (m_ntx (modat s p))) else []) (seq 0 (length (tab_of s))).
(** conversion of an object: from the frame buffer and the first 8 bytes of the application's object to the new
    frame buffer and an error code *)
Definition convert (s : node) (pos obj : nat) (can : list byte) : option (list byte * N) :=
  let o := txat (modat s pos) obj in
  match nth_error (n_mem s) (t_addr o), t_conv_s o with
  | Some app, Some g => Some (g can (firstn 8 app) (t_dlc o))
  | _, _ => None
  end.
(** the frames of a cycle; the frame buffer is shared by all objects; a failed conversion sends nothing *)
Definition data_tx_id (nr : N) (obj : nat) : N := 1024 + 4 * (nr - 1) + N.of_nat obj.
Fixpoint cyc_frames (s : node) (l : list (nat * nat)) (can : list byte) : list (N * N * list byte) :=
  match l with
  | [] => []
  | (p, o) :: t =>
      match convert s p o can with
      | Some (can', e) =>
          let dlc := t_dlc (txat (modat s p) o) in
          (if e =? ERR_OK then [(data_tx_id (m_nr (modat s p)) o, dlc, firstn (N.to_nat dlc) can')] else []) ++ cyc_frames s t can'
      | None => []
      end
  end.

(** which operations can change a silent state *)
Definition may_silence (E : env) (o : op) : bool :=
  match o with
  | OpFrame mo _ dlc data _ => sys_mo E mo && (dlc =? 8) && ((byte_at data 0 =? 32) || (byte_at data 0 =? 33) || (byte_at data 0 =? 34))
  | OpSilent _ _ _ => true
  | _ => false
  end.
(** the effect of one switch; [on] tells the direction *)
Record switched (on : bool) (p : nat) (s s' : node) : Prop := {
  sw_mod : modat s' p = if on then awakened (modat s p) else silenced (modat s p);
  sw_others : forall q, q <> p -> modat s' q = modat s q;
  sw_awake : forall q, (q < length (tab_of s))%nat -> awake s' q = if (q =? p)%nat then on else awake s q;
  sw_sent : forall q o, In (q, o) (enabled s') <-> if (q =? p)%nat then on = true /\ (o < m_ntx (modat s p))%nat else In (q, o) (enabled s);
  sw_cyclic : forall q o, (o < 4)%nat -> cyclic s' q o = if (q =? p)%nat && (o <? m_ntx (modat s p))%nat then on else cyclic s q o;
  sw_mem : n_mem s' = if on then n_mem s else zeroed (firstn (m_nrx (modat s p)) (m_rx (modat s p))) (n_mem s);
  sw_rest : n_sync s' = n_sync s /\ n_sys s' = n_sys s /\ n_hw s' = n_hw s /\ n_err s' = n_err s /\ nmod s' = nmod s /\ length (tab_of s') = length (tab_of s) /\
            x_id (n_tx s') = x_id (n_tx s) /\ x_dlc (n_tx s') = x_dlc (n_tx s)
}.
(** does the validator of the application accept number [new] for entry [p] *)
Definition accepts_nr (s : node) (p : nat) (new : N) : Prop :=
  match k_voter (n_cfg s) with
  | None => True
  | Some v => v (m_type (modat s p)) new (m_nr (modat s p)) = 0 \/ v (m_type (modat s p)) new (m_nr (modat s p)) = 3
  end.

(** ** message objects *)
(** identifiers a module listens to: received process data, asynchronous control messages *)
Definition data_rx_id (nr : N) (obj : nat) : N := 512 + 4 * (nr - 1) + N.of_nat obj.
Definition ctl_rx_id (nr : N) : N := 1536 + 4 * (nr - 1).
(** the message object of a receive object, the [n]-th control message object *)
Definition rx_mo (s : node) (p i : nat) : nat := r_mo (rxat (modat s p) i).
Definition ctl_mo (s : node) (n : nat) : nat := nth n (k_actrl (n_cfg s)) 0%nat.
(** the object receives exactly the frames with this identifier *)
Definition listens (s : node) (mo : nat) (id : N) : Prop := nth mo (h_filt (n_hw s)) None = Some (id, 2047).
Definition registered (s : node) (mo p : nat) : Prop := In (mo, p) (h_rxtab (n_hw s)).
Definition is_ctl (s : node) (mo : nat) : bool := N.testbit (h_mask_ctrl (n_hw s)) (N.of_nat mo).
Definition taken (s : node) (mo : nat) : bool := nth mo (h_used (n_hw s)) false.
(** message objects with a fixed meaning *)
Definition fixed_mo (E : env) : list nat :=
  [MO_PROCESS; MO_SYS1; MO_TX] ++ (if SYS2 E then [MO_SYS2] else []) ++ (if ASY E then [MO_ASYNC_DATA] else []).
(** module [p] has all its message objects: every receive object one that is registered for the module, handled as
    process data and listens to its identifier; and, if there are asynchronous messages, one for control messages *)
Definition complete (E : env) (s : node) (p : nat) : Prop :=
  (p < nmod s)%nat /\
  (forall i, (i < m_nrx (modat s p))%nat ->
     registered s (rx_mo s p i) p /\ is_sync_mo (rx_mo s p i) s = true /\ listens s (rx_mo s p i) (data_rx_id (m_nr (modat s p)) i)) /\
  (ASY E = true -> is_ctl s (ctl_mo s p) = true /\ listens s (ctl_mo s p) (ctl_rx_id (m_nr (modat s p)))).
(** the position the next module gets *)
Definition next_pos (s : node) : option nat := find (fun p => negb (in_use (modat s p))) (seq 0 (length (tab_of s))).
(** an error was reported under the number of the first module *)
Definition reported (s s' : node) : Prop :=
  exists e r, e <> ERR_OK /\ syserr_send (n_err s) e LVL_INFO (nr_main s') = Some (n_err s', r).
(** the message object accepts frames with this identifier; identifiers of system messages and asynchronous data
    to a module *)
Definition passes (s : node) (mo : nat) (id : N) : Prop :=
  match nth mo (h_filt (n_hw s)) None with Some (f, m) => N.land (N.lxor id f) m = 0 | None => False end.
Definition sys_rx_id (nr : N) : N := 2 + 4 * (nr - 1).
Definition async_rx_id (nr : N) : N := 1538 + 4 * (nr - 1).
(** the node hears system messages and asynchronous data for number [nr] *)
Definition hears (E : env) (s : node) (nr : N) : Prop :=
  passes s MO_SYS1 (sys_rx_id nr) /\ (SYS2 E = true -> passes s MO_SYS2 (sys_rx_id nr)) /\ (ASY E = true -> passes s MO_ASYNC_DATA (async_rx_id nr)).
(** the identifier stored for a transmit object *)
Definition tx_ident (s : node) (p o : nat) : N := nth o (nth p (x_id (n_tx s)) []) 0.

(** ** additions *)
(** the additions among the operations *)
Definition adds (ops : list op) : list (modl * N * list nat * list nat) :=
  flat_map (fun o => match o with OpAdd d nr rxs txs => [(d, nr, rxs, txs)] | _ => [] end) ops.
(** entry [m] has the type, the objects and the pointers of an addition *)
Definition configured_as (m d : modl) (rxs txs : list nat) : Prop :=
  m_type m = m_type d /\ m_nrx m = m_nrx d /\ m_ntx m = m_ntx d /\
  (forall i, (i < 4)%nat -> r_addr (rxat m i) = nth i rxs (r_addr (rxat d i)) /\ r_dlc (rxat m i) = r_dlc (rxat d i) /\ r_conv (rxat m i) = r_conv (rxat d i)) /\
  (forall i, (i < 4)%nat -> t_addr (txat m i) = nth i txs (t_addr (txat d i)) /\ t_dlc (txat m i) = t_dlc (txat d i) /\ t_conv (txat m i) = t_conv (txat d i)).
(** number of an added module at position [p] for a requested number *)
Definition given_nr (s : node) (p : nat) (nr : N) : N :=
  if (2 <=? nr) && (nr <=? 124) && negb (existsb (fun q => m_nr (modat s q) =? nr) (seq 0 p)) then nr else 125 + N.of_nat p.
(** the requested change, if the operation may change a number: entry, new number *)
Definition nr_request (E : env) (s : node) (o : op) : option N :=
  match o with
  | OpFrame mo _ dlc data _ => if sys_mo E mo && (dlc =? 8) && (byte_at data 0 =? 32) then Some (byte_at data 2) else None
  | OpSetNr _ new _ => Some new
  | _ => None
  end.
(** histories in which every operation satisfies [P] in the state it is executed in *)
Fixpoint run_with (E : env) (P : node -> op -> Prop) (ops : list op) (s s' : node) : Prop :=
  match ops with
  | [] => s' = s
  | o :: t => P s o /\ exists s1, step E o s = Ret (tt, s1) /\ run_with E P t s1 s'
  end.
(** a number that may be given away: valid and not in use *)
Definition fresh_nr (s : node) (new : N) : Prop :=
  2 <= new <= 124 /\ forall p, (p < length (tab_of s))%nat -> in_use (modat s p) = true -> m_nr (modat s p) <> new.
Definition careful (E : env) (s : node) (o : op) : Prop := plain E o \/ exists new, nr_request E s o = Some new /\ fresh_nr s new.
