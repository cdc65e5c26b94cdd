(** Switching a module silent or awake by the application (source/config/io_can_config.c:1715-1745,
    li_can_slv_config_set_module_silent_awake_from_type_and_nr 1958-1975) with interrupts between its memory accesses: a process request
    (source/core/io_can_main.c:586-668) or a message that switches a module (source/sys/io_can_sys.c:842), both as a whole.
    Modelled is what decides the transmission: the state, the send register and the conversion routines in use.  Not modelled: the
    receive part of can_config_sync_off and can_config_sync_on (lines 1231-1249, 1276-1288), the tx_dlc_sync fields (not used for sending), the
    notification of the application (line 1720), failures of the driver and of the application's routines. *)
From Verif Require Import Words NodeModel.

(** the state: send_reg (io_can_main.c:202, 468), can_config_module_silent, and for module and object whether tx_main_sync is the
    application's routine (false: tx_main_dummy, io_can_config.c:2424) *)
Record sw := Sw { w_reg : N; w_silent : nat -> N; w_conv : nat -> nat -> bool }.
(** io_can_main.c:467, 482: the flag of object [i] of the module at position [t] *)
Definition flag (t i : nat) : N := N.shiftl 1 (N.of_nat (4 * t + i)).

(** the accesses of the main program *)
Inductive wacc :=
| WState              (* io_can_config.c:1719 *)
| WSwitch             (* 1725: the state is read again *)
| WLoad (i : nat)     (* io_can_main.c:468, 483: read-modify-write of the register *)
| WStore (i : nat)
| WConv (i : nat).    (* io_can_config.c:1222, 1271 *)
Definition switch_prog (n : nat) : list wacc := WState :: WSwitch :: flat_map (fun i => [WLoad i; WStore i; WConv i]) (seq 0 n).
(** the local values: the state the switch statement saw, a loaded register *)
Record wlocal := WLocal { wl_to : N; wl_tmp : N }.
Definition put_silent (s : sw) (t : nat) (x : N) : sw := Sw (w_reg s) (fun m => if (m =? t)%nat then x else w_silent s m) (w_conv s).
Definition put_reg (s : sw) (x : N) : sw := Sw x (w_silent s) (w_conv s).
Definition put_conv (s : sw) (t i : nat) (x : bool) : sw := Sw (w_reg s) (w_silent s) (fun m j => if (m =? t)%nat && (j =? i)%nat then x else w_conv s m j).
(** [t] the position, [st] the state ordered; other states than SILENT and AWAKE do nothing (line 1735) *)
Definition waccess (t : nat) (st : N) (a : wacc) (l : wlocal) (s : sw) : wlocal * sw :=
  let off := wl_to l =? SILENT in let on := wl_to l =? AWAKE in
  match a with
  | WState => (l, put_silent s t st)
  | WSwitch => (WLocal (w_silent s t) (wl_tmp l), s)
  | WLoad _ => (WLocal (wl_to l) (w_reg s), s)
  | WStore i => (l, if off then put_reg s (N.ldiff (wl_tmp l) (flag t i)) else if on then put_reg s (N.lor (wl_tmp l) (flag t i)) else s)
  | WConv i => (l, if off then put_conv s t i false else if on then put_conv s t i true else s)
  end.
Fixpoint wexec (t : nat) (st : N) (prog : list wacc) (l : wlocal) (s : sw) : sw :=
  match prog with [] => s | a :: r => let '(l', s') := waccess t st a l s in wexec t st r l' s' end.
Section Irq.
(** the number of transmit objects of the modules *)
Variable txn : nat -> nat.
Definition switch (t : nat) (st : N) (s : sw) : sw := wexec t st (switch_prog (txn t)) (WLocal st 0) s.

(** io_can_main.c:586-668: the frames of a process request in order: position, object, and whether the data are the application's.
    With the dummy routine the buffer of the function is sent as it is: with the data of the frame before, or not
    initialised (line 589).  The bits above send_end are not set (C06). *)
Definition wframe := (nat * nat * bool)%type.
Definition frames (s : sw) : list wframe :=
  flat_map (fun m => flat_map (fun i => if N.testbit (w_reg s) (N.of_nat (4 * m + i)) then [(m, i, w_conv s m i)] else []) (seq 0 4)) (seq 0 8).

(** interrupts *)
Inductive wirq := IRequest | ISwitch (t : nat) (st : N).
(** a process request: the module being switched, the states and the frames *)
Record wreq := WReq { r_busy : nat; r_silent : nat -> N; r_frames : list wframe }.
Fixpoint irqs (busy : nat) (s : sw) (os : list wirq) : sw * list wreq :=
  match os with
  | [] => (s, [])
  | IRequest :: r => let '(s1, e) := irqs busy s r in (s1, WReq busy (w_silent s) (frames s) :: e)
  | ISwitch t st :: r => irqs busy (switch t st s) r
  end.
(** the switch of [t]: [irq k] before access [k] *)
Fixpoint swexec (t : nat) (st : N) (irq : nat -> list wirq) (k : nat) (prog : list wacc) (l : wlocal) (s : sw) : sw * list wreq :=
  let '(s1, e1) := irqs t s (irq k) in
  match prog with
  | [] => (s1, e1)
  | a :: r => let '(l', s2) := waccess t st a l s1 in let '(s3, e3) := swexec t st irq (S k) r l' s2 in (s3, e1 ++ e3)
  end.
(** calls of the application with their interrupts *)
Definition whist := list (nat * N * (nat -> list wirq)).
Fixpoint wrun (s : sw) (h : whist) : sw * list wreq :=
  match h with
  | [] => (s, [])
  | (t, st, irq) :: r => let '(s1, e1) := swexec t st irq 0 (switch_prog (txn t)) (WLocal st 0) s in let '(s2, e2) := wrun s1 r in (s2, e1 ++ e2)
  end.
End Irq.
