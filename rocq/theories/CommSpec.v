(** Commissioning (C101): several nodes on one bus, told apart by their serial numbers, are given module numbers by
    change-number messages that all of them receive. *)
From Verif Require Import Words ErrModel NodeModel NodeSpec NodeUseSpec.

(** a node on the bus: its configuration (which has its serial number) and its state *)
Record station := Station { st_env : env; st_node : node }.
Definition serial (c : station) : N := SERIAL (st_env c).
(** an assignment: the serial number of a node, the number one of its modules has, the number that module is to get, and the time
    the message is received *)
Record assignment := Assign { a_serial : N; a_old : N; a_new : N; a_now : N }.
(** the message: the identifier of the system messages to the old number; command 32, the new number and the serial number *)
Definition assign_id (a : assignment) : N := sys_rx_id (a_old a).
Definition assign_data (a : assignment) : list byte := [32; 0; a_new a; 0; 0; a_serial a / 65536; a_serial a / 256 mod 256; a_serial a mod 256].
(** one node and one frame on the bus: an object for system messages whose filter the frame passes receives it; if there is none the
    node stays as it is *)
Definition receives (id : N) (data : list byte) (now : N) (c c' : station) : Prop :=
  st_env c' = st_env c /\
  ((exists mo, sys_mo (st_env c) mo = true /\ passes (st_node c) mo id /\ step (st_env c) (OpFrame mo id 8 data now) (st_node c) = Ret (tt, st_node c')) \/
   ((forall mo, sys_mo (st_env c) mo = true -> ~ passes (st_node c) mo id) /\ st_node c' = st_node c)).
(** the bus: every node gets every message *)
Inductive assigned : list assignment -> list station -> list station -> Prop :=
| assigned_none ns : assigned [] ns ns
| assigned_next a plan ns ns1 ns2 : Forall2 (receives (assign_id a) (assign_data a) (a_now a)) ns ns1 -> assigned plan ns1 ns2 -> assigned (a :: plan) ns ns2.
(** nodes that work and can be told apart *)
Definition distinct (ns : list station) : Prop :=
  NoDup (map serial ns) /\ Forall (fun c => env_ok (st_env c) /\ serial c < 16777216 /\ exists pre, reached (st_env c) pre (st_node c)) ns.
(** module [q] of the node is the one an assignment is meant for, and the application lets it have the new number *)
Definition meant (c : station) (a : assignment) (q : nat) : Prop :=
  a_serial a = serial c /\ 2 <= a_old a <= 128 /\ entry_of_nr (st_node c) (a_old a) = Some q /\ hears (st_env c) (st_node c) (a_old a) /\
  accepts_nr (st_node c) q (a_new a).
Definition number (c : station) (q : nat) : N := m_nr (modat (st_node c) q).
(** an assignment that can be put into a message *)
Definition valid (a : assignment) : Prop := 2 <= a_old a <= 128 /\ a_serial a < 16777216.
Definition is_frame (o : op) : Prop := match o with OpFrame _ _ _ _ _ => True | _ => False end.
(** what a module needs for a new number (cf. C71): all its objects are configured, it is awake, there is a free message object,
    the controller accepts what it is given, no application function is asked, and the number is in range *)
Definition able (c : station) (a : assignment) (q : nat) : Prop :=
  complete (st_env c) (st_node c) q /\ awake (st_node c) q = true /\ (0 < free_objects (st_node c))%nat /\ n_orc (st_node c) = [] /\
  (forall i, (i < m_nrx (modat (st_node c) q))%nat -> r_dlc (rxat (modat (st_node c) q) i) <= 8) /\ k_voter (n_cfg (st_node c)) = None /\ 1 <= a_new a <= 128.
