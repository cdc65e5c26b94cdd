(** Model of the IO configuration of the modules: source/config/io_can_config.c, build with LI_CAN_SLV_MODULE_IO_CONFIG.
    Line numbers are those of that file.

    Simplifications: of an entry of the module table only the type (bytes before the terminating 0) and the IO configuration
    are kept; the calls run without interrupts in between; errors of an addition other than "table full" do not concern these
    fields (NodeModel.add_module has them). *)
From Verif Require Import Words NodeModel.

(** can_config_ioconfig_t (include/li_can_slv/config/io_can_config_types.h:82-88): checksum, date, and the application's
    function or NULL *)
Record ioc := Ioc { io_crc : N; io_date : N; io_fn : option nat }.
Record ient := Ent { e_type : list byte; e_io : ioc }.
Definition itab := list ient.

(** can_port_string_cmp is 0 *)
Definition type_eqb (a b : list byte) : bool := if list_eq_dec N.eq_dec a b then true else false.
Definition free (e : ient) : bool := match e_type e with [] => true | _ => false end.

(** 747-756 can_config_init: every type becomes the empty string, the rest of the entries stays *)
Definition io_init (l : itab) : itab := map (fun e => Ent [] (e_io e)) l.
(** 974-1020 can_config_add_module and 2182: the first free entry becomes a copy of the application's module *)
Fixpoint io_add (t : list byte) (c : ioc) (l : itab) : option itab :=
  match l with
  | [] => None
  | e :: r => if free e then Some (Ent t c :: r) else option_map (cons e) (io_add t c r)
  end.
(** 1651-1667 can_config_module_type_valid: the first entry of the whole table with this type *)
Fixpoint type_pos (t : list byte) (l : itab) : option nat :=
  match l with
  | [] => None
  | e :: r => if type_eqb (e_type e) t then Some O else option_map S (type_pos t r)
  end.
(** 1306-1321 can_config_set_ioconfig *)
Fixpoint upd_at (p : nat) (f : ient -> ient) (l : itab) : itab :=
  match l, p with
  | [], _ => []
  | e :: r, O => f e :: r
  | e :: r, S p' => e :: upd_at p' f r
  end.
Definition io_set (t : list byte) (crc date : N) (l : itab) : option itab :=
  match type_pos t l with
  | None => None
  | Some p => Some (upd_at p (fun e => Ent (e_type e) (Ioc crc date (io_fn (e_io e)))) l)
  end.
(** 1329-1349 can_config_call_ioconfig_set: None: type not found; otherwise the function that is called, if there is one *)
Definition io_call (t : list byte) (l : itab) : option (option nat) :=
  match type_pos t l with
  | None => None
  | Some p => Some (match nth_error l p with Some e => io_fn (e_io e) | None => None end)
  end.
(** 1590-1602 can_config_get_ioconfig: None: position outside of the table *)
Definition io_get (p : nat) (l : itab) : option ioc := option_map e_io (nth_error l p).

(** calls of the application *)
Inductive iop := IInit | IAdd (t : list byte) (c : ioc) | ISet (t : list byte) (crc date : N).
Definition istep (l : itab) (o : iop) : itab :=
  match o with
  | IInit => io_init l
  | IAdd t c => match io_add t c l with Some l' => l' | None => l end
  | ISet t crc date => match io_set t crc date l with Some l' => l' | None => l end
  end.
(** the table at program start (153-506): no types; [max] is LI_CAN_SLV_MAX_NR_OF_LOGICAL_MODULES, [d] the default values *)
Definition irun (max : nat) (d : ioc) (h : list iop) : itab := fold_left istep h (repeat (Ent [] d) max).
