(** Change of a module's number by the application (lcsa_change_module_nr_and_identifiers, source/config/io_can_config.c:1781-1926)
    with interrupts between its memory accesses: process requests (source/core/io_can_main.c:586-668) and process data for the
    module (source/sync/io_can_sync.c:490-584), both as a whole.
    Modelled: the number, the identifiers and send flags of the transmit objects, the identifiers of the receive objects.
    Not modelled: shared objects (1864-1916), the data, failures of the driver, requests of other modules, interrupts that
    themselves change numbers or states (C78); the module is the last one of the table (else a request does not end, io_can_main.c:451, 626).  The send register is read and written as one access. *)
From Verif Require Import Words NodeModel.

(** the part of the configuration that belongs to the module: can_config_module_tab[].module_nr,
    can_main_sync_process_tx_data_ctrl.id and .send_reg (io_can_main.c:445, 450), identifiers of the receive objects *)
Record nm := Nm { m_num : N; m_txid : nat -> N; m_flag : nat -> bool; m_rxid : nat -> N }.
Definition upd_at {A} (f : nat -> A) (i : nat) (x : A) : nat -> A := fun j => if (j =? i)%nat then x else f j.

Inductive nacc :=
| NNr            (* io_can_config.c:1797 *)
| NId (i : nat)  (* io_can_main.c:445, called at io_can_config.c:1814 *)
| NFlag (i : nat) (* io_can_main.c:450 *)
| NRx (j : nat)  (* io_can_config.c:1857 *)
| NEnd (i : nat) (* 1921: can_config_set_module_silent_awake with the present state, object by object *).
Definition naccess (new : N) (silent : bool) (a : nacc) (s : nm) : nm :=
  match a with
  | NNr => Nm new (m_txid s) (m_flag s) (m_rxid s)
  | NId i => Nm (m_num s) (upd_at (m_txid s) i (can_ident BASE_TX new i)) (m_flag s) (m_rxid s)
  | NFlag i => Nm (m_num s) (m_txid s) (upd_at (m_flag s) i true) (m_rxid s)
  | NRx j => Nm (m_num s) (m_txid s) (m_flag s) (upd_at (m_rxid s) j (can_ident BASE_RX new j))
  | NEnd i => Nm (m_num s) (m_txid s) (upd_at (m_flag s) i (negb silent)) (m_rxid s)
  end.
(** [n] transmit, [m] receive objects *)
Definition nprog (n m : nat) : list nacc :=
  NNr :: flat_map (fun i => [NId i; NFlag i]) (seq 0 n) ++ map NRx (seq 0 m) ++ map NEnd (seq 0 n).

(** interrupts: a process request; process data with this identifier that the controller has put into receive object [j] *)
Inductive nirq := NRequest | NData (j : nat) (id : N).
(** what is seen: the frames of a request (object, identifier); data that are given to the application; data that are refused
    with an error *)
Inductive nev := NSent (l : list (nat * N)) | NTaken (j : nat) (id : N) | NRefused (j : nat) (id : N).
(** [chk]: the number of received data is checked (io_can_sync.c:498-506) *)
Definition nserve (chk : bool) (n : nat) (s : nm) (q : nirq) : list nev :=
  match q with
  | NRequest => [NSent (map (fun i => (i, m_txid s i)) (filter (m_flag s) (seq 0 n)))]
  | NData j id =>
      if id =? m_rxid s j then (if chk && negb (rx_nr id =? m_num s) then [NRefused j id] else [NTaken j id]) else []
  end.
(** [irq k]: the interrupts before access [k] *)
Fixpoint nexec (chk : bool) (n : nat) (new : N) (silent : bool) (irq : nat -> list nirq) (k : nat) (prog : list nacc) (s : nm) : nm * list nev :=
  let e := flat_map (nserve chk n s) (irq k) in
  match prog with
  | [] => (s, e)
  | a :: r => let '(s', e') := nexec chk n new silent irq (S k) r (naccess new silent a s) in (s', e ++ e')
  end.
Definition change (chk : bool) (n m : nat) (new : N) (silent : bool) (irq : nat -> list nirq) (s : nm) : nm * list nev :=
  nexec chk n new silent irq 0 (nprog n m) s.
