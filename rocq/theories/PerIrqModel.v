(** The period of the process requests with requests arriving by interrupt between the memory accesses of the main program:
    source/sync/io_can_sync.c:1072-1080 li_can_slv_sync_get_process_periode and 1250-1269
    li_can_slv_sync_trigger_process_periode (called by li_can_slv_process, source/core/io_can.c:303), interrupted by 459-475
    can_sync_rx_process_main.  Simplification: one tick is one millisecond, the interrupt reads the clock once. *)
From Verif Require Import Words.

(** can_sync.pr_periode and can_sync.main_pr_timestamp *)
Record per := Per { p_per : N; p_ts : N }.
(** lines 467-468 *)
Definition preq (s : per) (t : N) : per := Per (u32_sub t (p_ts s)) t.
(** requests at the given times *)
Definition preqs (ts : list N) (s : per) : per := fold_left preq ts s.

(** lines 1072-1080; [i1]: requests before the comparison reads the period, [i2]: after it, [i3]: between the store and the
    reading of the result *)
Definition get_per (pm : N) (i1 i2 i3 : list N) (s : per) : N * per :=
  let s1 := preqs i1 s in
  let s2 := preqs i2 s1 in
  if pm <? p_per s1 then let s3 := preqs i3 (Per pm (p_ts s2)) in (p_per s3, s3)
  else (p_per s2, s2).

(** lines 1250-1269; the order in which line 1257 reads the clock and the time stamp is not defined: [clock_first].
    [i1]: requests before both, [i2]: between, [i3]: before the comparison reads the period, [i4]: before the store *)
Definition trig_per (clock_first : bool) (pm now : N) (i1 i2 i3 i4 : list N) (s : per) : per :=
  let s1 := preqs i1 s in
  let s2 := preqs i2 s1 in
  let ts := if clock_first then p_ts s2 else p_ts s1 in
  let lim := u16 pm in
  let d := u32_sub now ts in
  let d := if lim <? d then lim else d in
  let s3 := preqs i3 s2 in
  let s4 := preqs i4 s3 in
  if p_per s3 <? d then Per d (p_ts s4) else s4.
