(** Changes of module types (C69). *)
From Verif Require Import Words ErrModel NodeModel NodeSpec.

(** a change-type message for entry [p]: a direct system message of length 8 with command 49, the number of the entry and
    the serial number of the node, while the type it names is registered for the entry as [c] *)
Definition type_msg (E : env) (s : node) (mo : nat) (id dlc : N) (data : list byte) (p : nat) (c : chent) : Prop :=
  sys_mo E mo = true /\ dlc = 8 /\ byte_at data 0 = 49 /\ id_nr id <> 1 /\ entry_of_nr s (id_nr id) = Some p /\ has_serial E data = true /\
  nth p (k_chg (n_cfg s)) None = Some c /\ strn_eq 4 (m_type (c_desc c)) (tl data) = true.
(** entry [m'] is entry [m] with the type, the objects and the pointers of the registration, and with the same number *)
Definition took_type (c : chent) (m m' : modl) : Prop :=
  m_nr m' = m_nr m /\ m_type m' = m_type (c_desc c) /\ m_nrx m' = m_nrx (c_desc c) /\ m_ntx m' = m_ntx (c_desc c) /\
  (forall i, (i < 4)%nat -> r_addr (rxat m' i) = nth i (c_rx c) 0%nat /\ r_dlc (rxat m' i) = r_dlc (rxat (c_desc c) i) /\ r_conv (rxat m' i) = r_conv (rxat (c_desc c) i)) /\
  (forall i, (i < 4)%nat -> t_addr (txat m' i) = nth i (c_tx c) 0%nat /\ t_dlc (txat m' i) = t_dlc (txat (c_desc c) i) /\ t_conv (txat m' i) = t_conv (txat (c_desc c) i)).
(** what an entry is, without its number: type, numbers of objects, lengths, conversions, pointers *)
Definition shape (m : modl) : list byte * nat * nat * list (nat * N * option rxconv) * list (nat * N * option txconv) :=
  (m_type m, m_nrx m, m_ntx m, map (fun o => (r_addr o, r_dlc o, r_conv o)) (m_rx m), map (fun o => (t_addr o, t_dlc o, t_conv o)) (m_tx m)).
