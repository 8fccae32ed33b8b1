(** Rate control of uploads (src/flow_control.rs) and the loop of src/client/sender.rs that
    consults it.

    f32 is IEEE 754 binary32 as specified by the standard library's SpecFloat (24 bits, exponent
    bound 128, nearest-even); one NaN only.  Durations and instants are nanoseconds, instants
    counted from an arbitrary origin.  [chk] says whether integer overflow panics (debug builds)
    or wraps (release builds).  Log output and metrics are left out. *)
From Coq Require Import Floats.SpecFloat.
From Verif Require Import Base PacketModel MapperModel ReaderModel ConfigModel ConnModel ClientModel.

(** ** f32 and Duration (core) *)
Definition f32 := spec_float.
(** f32 as used in src/flow_control.rs 116-246. *)
Definition fmul : f32 -> f32 -> f32 := SFmul 24 128.
(** f32 as used in src/flow_control.rs 116-246. *)
Definition fadd : f32 -> f32 -> f32 := SFadd 24 128.
(** f32 as used in src/flow_control.rs 116-246. *)
Definition fsub : f32 -> f32 -> f32 := SFsub 24 128.
(** f32 as used in src/flow_control.rs 116-246. *)
Definition fdiv : f32 -> f32 -> f32 := SFdiv 24 128.
(** f32::sqrt in src/flow_control.rs 228-242. *)
Definition fsqrt : f32 -> f32 := SFsqrt 24 128.
(** [n as f32] for unsigned n. *)
Definition f_of (n : N) : f32 := binary_normalize 24 128 (Z.of_N n) 0 false.
(** f32::max / f32::min: the other operand if one is NaN. *)
Definition fmax (a b : f32) : f32 :=
  match a, b with
  | S754_nan, _ => b
  | _, S754_nan => a
  | _, _ => if SFltb a b then b else a
  end.
(** f32::min in src/flow_control.rs 157-158. *)
Definition fmin (a b : f32) : f32 :=
  match a, b with
  | S754_nan, _ => b
  | _, S754_nan => a
  | _, _ => if SFltb b a then b else a
  end.
(** [x as u32]: truncates and saturates, NaN gives 0. *)
Definition U32 : N := 2 ^ 32.
(** u32::MAX in src/flow_control.rs 46-214. *)
Definition U32_MAX : N := 4294967295.
(** as u32 in src/flow_control.rs 125-242: truncation, saturating, NaN becomes 0. *)
Definition to_u32 (x : f32) : N :=
  match x with
  | S754_finite false m e =>
      N.min U32_MAX (match e with
                     | Zneg p => Npos m / 2 ^ Npos p
                     | _ => Npos m * 2 ^ Z.to_N e
                     end)
  | S754_infinity false => U32_MAX
  | _ => 0
  end.
(** f32 literals: 0.9, 0.85. *)
Definition f0_9 : f32 := S754_finite false 15099494 (-24).
(** The constant 0.85 of src/flow_control.rs 146, rounded to binary32. *)
Definition f0_85 : f32 := S754_finite false 14260634 (-24).

(** core::time::Duration, nanoseconds of a second (src/flow_control.rs 92-220). *)
Definition NANOS : N := 1000000000.
(** Duration::as_secs_f32. *)
Definition as_secs (ns : N) : f32 := fadd (f_of (ns / NANOS)) (fdiv (f_of (ns mod NANOS)) (f_of NANOS)).
(** Rounding of num / den to the nearest integer, ties to even.
    Duration::as_secs_f32 and the like, used in src/flow_control.rs 92-220. *)
Definition near (num den : N) : N :=
  let q := num / den in
  match 2 * (num mod den) ?= den with
  | Lt => q
  | Gt => q + 1
  | Eq => if N.even q then q else q + 1
  end.
(** Duration::from_secs_f32: panics unless 0 <= x < 2^64. *)
Definition from_secs (x : f32) : res unit N :=
  match x with
  | S754_zero _ => Ok 0
  | S754_finite false m e =>
      match e with
      | Zneg p => if 2 ^ 64 * 2 ^ Npos p <=? Npos m then Panic else Ok (near (Npos m * NANOS) (2 ^ Npos p))
      | _ => if 2 ^ 64 <=? Npos m * 2 ^ Z.to_N e then Panic else Ok (Npos m * 2 ^ Z.to_N e * NANOS)
      end
  | _ => Panic
  end.

(** Checked integer arithmetic.  Used for the u32 arithmetic of src/flow_control.rs 107-246. *)
Definition bindp {A B : Type} (x : res unit A) (k : A -> res unit B) : res unit B :=
  match x with Ok a => k a | Err e => Err e | Panic => Panic end.
(** Overflow of the integers of src/flow_control.rs 107-246. *)
Definition upto (chk : bool) (m n : N) : res unit N :=
  if n <? m then Ok n else if chk then Panic else Ok (n mod m).

(** ** flow_control.rs *)
(** flow_control.rs 16-44; total_data_sent (34) is only ever written. *)
Record rate := mkRate {
  r_allowed : N; r_start : N; r_for : N; r_est : f32;
  r_packets : N; r_errors : N; r_sent : N; r_data : N;
  r_set : N * N * N; r_loss : bool; r_nofb : N; r_expired : bool; r_limited : bool }.

(** flow_control.rs 47-67 new. *)
Definition rate_new (now : N) : rate :=
  mkRate U32_MAX now 0 (S754_zero false) 0 0 0 0 (U32_MAX, 0, 0) false (2 * NANOS) false false.

(** flow_control.rs 69-73 increment_errors. *)
Definition increment_errors (chk : bool) (r : rate) : res unit rate :=
  bindp (upto chk U32 (r_errors r + 1)) (fun e =>
  Ok (mkRate (r_allowed r) (r_start r) (r_for r) (r_est r) (r_packets r) e (r_sent r) (r_data r)
        (r_set r) true (r_nofb r) (r_expired r) (r_limited r))).

(** flow_control.rs 75-78 mark_as_data_limited (not called by the crate). *)
Definition mark_as_data_limited (r : rate) : rate :=
  mkRate (r_allowed r) (r_start r) (r_for r) (r_est r) (r_packets r) (r_errors r) (r_sent r) (r_data r)
    (r_set r) (r_loss r) (r_nofb r) (r_expired r) true.

(** flow_control.rs 80-90 start_rtt. *)
Definition start_rtt (r : rate) (now block : N) : rate :=
  let late := r_nofb r <=? now - r_start r in
  let f := if late then 0 else r_for r in
  let x := if late then true else r_expired r in
  if f =? 0
  then mkRate (r_allowed r) now block (r_est r) (r_packets r) (r_errors r) (r_sent r) (r_data r)
         (r_set r) (r_loss r) (r_nofb r) x (r_limited r)
  else mkRate (r_allowed r) (r_start r) f (r_est r) (r_packets r) (r_errors r) (r_sent r) (r_data r)
         (r_set r) (r_loss r) (r_nofb r) x (r_limited r).

(** [rtt_estimate == 0.0] (95, 118). *)
Definition no_estimate (x : f32) : bool := SFeqb x (S754_zero false).
(** flow_control.rs 223-225 smooth_rtt_estimate. *)
Definition smooth (est cur : f32) : f32 := fadd (fmul f0_9 est) (fmul (fsub (f_of 1) f0_9) cur).

(** flow_control.rs 92-105 end_rtt: with the sample taken. *)
Definition end_rtt (r : rate) (now block : N) : rate * option N :=
  let elapsed := now - r_start r in
  let hit := r_for r =? block in
  let est := if hit
             then if no_estimate (r_est r) then as_secs elapsed else smooth (r_est r) (as_secs elapsed)
             else r_est r in
  (mkRate (r_allowed r) (r_start r) 0 est (r_packets r) (r_errors r) (r_sent r) (r_data r)
     (r_set r) (r_loss r) (r_nofb r) (r_expired r) (r_limited r),
   if hit then Some elapsed else None).

(** flow_control.rs 107-109 data_sent. *)
Definition data_sent (chk : bool) (r : rate) (size : N) : res unit rate :=
  bindp (upto chk U32 (r_sent r + size mod U32)) (fun s =>
  Ok (mkRate (r_allowed r) (r_start r) (r_for r) (r_est r) (r_packets r) (r_errors r) s (r_data r)
        (r_set r) (r_loss r) (r_nofb r) (r_expired r) (r_limited r))).

(** flow_control.rs 111-114 acknowledged_data. *)
Definition acknowledged_data (chk : bool) (r : rate) (size packets : N) : res unit rate :=
  bindp (upto chk U32 (r_data r + size mod U32)) (fun d =>
  bindp (upto chk U32 (r_packets r + packets)) (fun p =>
  Ok (mkRate (r_allowed r) (r_start r) (r_for r) (r_est r) p (r_errors r) (r_sent r) d
        (r_set r) (r_loss r) (r_nofb r) (r_expired r) (r_limited r)))).

(** flow_control.rs 116-123 timeout_interval. *)
Definition timeout_interval (r : rate) (retry bs : N) : res unit N :=
  if no_estimate (r_est r) then Ok retry
  else
    let t := fmax (fmul (f_of 4) (r_est r)) (fdiv (fmul (f_of 2) (f_of bs)) (f_of (r_allowed r))) in
    bindp (from_secs t) (fun d => Ok (N.max d retry)).

(** flow_control.rs 244-246 initial_rate (u16 arithmetic). *)
Definition INITIAL_TCP_WINDOW : N := 4380.
(** src/flow_control.rs 244-246. *)
Definition initial_rate (chk : bool) (bs : N) : res unit N :=
  bindp (upto chk 65536 (4 * bs)) (fun a =>
  bindp (upto chk 65536 (2 * bs)) (fun b => Ok (N.min a (N.max b INITIAL_TCP_WINDOW)))).

(** flow_control.rs 227-242 average_transmit_rate. *)
Definition average_rate (rtt bs w loss rto : f32) : N :=
  to_u32 (fdiv bs
    (fadd (fmul rtt (fsqrt (fdiv (fmul (fmul (f_of 2) w) loss) (f_of 3))))
          (fmul rto (fmul (fmul (fmul (f_of 3) (fsqrt (fdiv (fmul (fmul (f_of 3) w) loss) (f_of 8)))) loss)
                          (fadd (f_of 1) (fmul (fmul (f_of 32) loss) loss)))))).

(** flow_control.rs 194-197, 215-221 packets_to_send (not called by the crate). *)
Definition packets_to_send (allowed window bs : N) : N :=
  if 0 <? allowed then to_u32 (fmul (fdiv (f_of allowed) (f_of bs)) (as_secs window)) else U32_MAX.

(** flow_control.rs 199-212 maximize_set, update_set; the maximum of the set. *)
Definition set_max (s : N * N * N) : N := let '(a, b, c) := s in N.max (N.max a b) c.
(** src/flow_control.rs 199-206. *)
Definition maximize_set (s : N * N * N) (received : N) : N * N * N :=
  let m := set_max s in
  (if (m <? received) || (m =? U32_MAX) then received else m, 0, 0).
(** src/flow_control.rs 208-212. *)
Definition update_set (s : N * N * N) (received : N) : N * N * N := let '(a, b, _) := s in (received, a, b).
(** src/flow_control.rs 143-145. *)
Definition halve_set (s : N * N * N) : N * N * N := let '(a, b, c) := s in (a / 2, b / 2, c / 2).
(** saturating_mul in src/flow_control.rs 151, 155, 173. *)
Definition twice (n : N) : N := N.min U32_MAX (2 * n).

(** flow_control.rs 125-192 calculate_transmit_rate.  [initial_rate] is evaluated here in any case,
    which makes a difference only for block sizes beyond 16383 with overflow checks. *)
Definition calculate (chk : bool) (r : rate) (bs w retry received_in : N) : res unit rate :=
  bindp (initial_rate chk bs) (fun init =>
  let allowed := if r_expired r then r_allowed r else if r_data r =? 0 then 1 else r_allowed r in
  let received := if r_expired r then init else to_u32 (fdiv (f_of (r_data r)) (as_secs received_in)) in
  let '(set, limit) :=
    if r_limited r then
      if r_loss r || r_expired r then
        let s := maximize_set (halve_set (r_set r)) (to_u32 (fmul f0_85 (f_of received))) in (s, set_max s)
      else let s := maximize_set (r_set r) received in (s, twice (set_max s))
    else let s := update_set (r_set r) received in (s, twice (set_max s)) in
  let loss := fmin (f_of 1) (fdiv (f_of (r_errors r)) (f_of (N.max (r_packets r) 1))) in
  let r1 := mkRate allowed (r_start r) (r_for r) (r_est r) (r_packets r) (r_errors r) (r_sent r) (r_data r)
              set (r_loss r) (r_nofb r) (r_expired r) (r_limited r) in
  bindp (timeout_interval r1 retry bs) (fun ti =>
  let allowed :=
    if SFltb (S754_zero false) loss
    then N.max (N.min (average_rate (r_est r) (f_of bs) (f_of w) loss (as_secs ti)) limit) (bs / 64)
    else N.max (N.min (twice allowed) limit) init in
  Ok (mkRate allowed (r_start r) (r_for r) (r_est r) 0 0 (r_sent r) 0 set false ti false false))).

(** ** sender.rs *)
(** The options that matter: block size, with the overhead of encryption taken off, window,
    retry_packet_after_timeout, request_timeout; and the overflow checks.
    src/client/sender.rs 184-338, src/config.rs 68-74, 99-114. *)
Record flow_opts := mkFO { fo_bs : N; fo_bs_enc : N; fo_window : N; fo_retry : N; fo_timeout : N; fo_chk : bool }.

(** sender.rs 153-175: the variables of the loop. *)
Record sloop := mkSL {
  sl_cs : csend; sl_rate : rate; sl_last_sent : N; sl_stats : N; sl_map : mapper;
  sl_last_ack : N; sl_left : N; sl_idle : N }.

(** src/client/sender.rs 174, 185: the rate is recalculated after 200 ms at the earliest. *)
Definition FLOW_PERIOD : N := 200000000.

(** sender.rs 94-96, 122-124, 166-172: the rate control when the loop starts.  [t0]: before the
    request, [t1]: after the answer; [bs]: the block size agreed on. *)
Definition rate_start (o : flow_opts) (t0 t1 : N) : res unit rate :=
  let '(r, rtt) := end_rtt (start_rtt (rate_new t0) t0 1) t1 1 in
  let initial := match rtt with Some d => d | None => 1000000 end in
  bindp (acknowledged_data (fo_chk o) r (fo_bs o) 1) (fun r =>
  calculate (fo_chk o) r (fo_bs o) (fo_window o) (fo_retry o) initial).
(** sender.rs 145-184: the start of the loop at [t]. *)
Definition sloop_new (rd : reader) (r : rate) (t : N) : sloop :=
  mkSL (mkCS rd 0 t) r t t mapper_new 0 U32_MAX 0.

(** sender.rs 185-200: statistics, the interval and whether to retry; the clock is read once. *)
Definition loop_retry (o : flow_opts) (st : sloop) (t : N) : res unit (rate * N * N * bool) :=
  let due := FLOW_PERIOD <? t - sl_stats st in
  bindp (if due then calculate (fo_chk o) (sl_rate st) (fo_bs o) (fo_window o) (fo_retry o) (t - sl_stats st)
         else Ok (sl_rate st)) (fun r =>
  bindp (timeout_interval r (fo_retry o) (fo_bs o)) (fun ti =>
  Ok (r, if due then t else sl_stats st, ti, ti <? t - sl_last_sent st))).

(** sender.rs 185-246: the first half of an iteration; [t] is the clock at its beginning, [t'] after
    sending. *)
Definition loop_send (file : bytes) (o : flow_opts) (st : sloop) (buflen : N) (io : fio) (sock : option bool) (t t' : N)
  : res unit (sloop * list bytes * cstat) :=
  bindp (loop_retry o st t) (fun '(r, stats, _, retry) =>
  let '(rd, res) := reader_next file (cs_r (sl_cs st)) (buflen - DATA_PACKET_HEADER_SIZE) retry (io_bad io) in
  let cs := mkCS rd (cs_total (sl_cs st)) (cs_time (sl_cs st)) in
  match res with
  | Ok (Some b) =>
      let '(index, map) := map_index (sl_map st) (o_block b) in
      bindp (if sl_last_ack st + fo_window o =? index
             then bindp (if o_retry b then increment_errors (fo_chk o) r else Ok r) (fun r => Ok (start_rtt r t (o_block b)))
             else Ok r) (fun r =>
      match sock with
      | Some true =>
          bindp (data_sent (fo_chk o) r (blen (o_data b))) (fun r =>
          if (sl_left st =? 0) && fo_chk o then Panic
          else Ok (mkSL cs r t' stats map (sl_last_ack st) (if sl_left st =? 0 then U32_MAX else sl_left st - 1) 1,
                   [to_bytes (PData (o_block b) (o_data b))], CRun))
      | None => Ok (mkSL cs r (sl_last_sent st) stats map (sl_last_ack st) (sl_left st) ((sl_idle st + 1) mod 256), [], CRun)
      | Some false => Ok (mkSL cs r (sl_last_sent st) stats map (sl_last_ack st) (sl_left st) (sl_idle st), [], CFail)
      end)
  | Ok None => Ok (mkSL cs r (sl_last_sent st) stats (sl_map st) (sl_last_ack st) (sl_left st) ((sl_idle st + 1) mod 256), [], CRun)
  | Err RFile => Ok (mkSL cs r (sl_last_sent st) stats (sl_map st) (sl_last_ack st) (sl_left st) ((sl_idle st + 1) mod 256), [],
                     match io with IoWouldBlock => CRun | _ => CFail end)
  | _ => Ok (mkSL cs r (sl_last_sent st) stats (sl_map st) (sl_last_ack st) (sl_left st) (sl_idle st), [], CFail)
  end).

(** sender.rs 250-254: how long to wait for a datagram (milliseconds). *)
Definition loop_wait (st : sloop) : option N := if 2 <? sl_idle st then Some (sl_idle st) else None.

(** sender.rs 263-338: the second half of an iteration; the clock is read once. *)
Definition loop_recv (dec : bytes -> option bytes) (o : flow_opts) (st : sloop) (e : cev) (t : N) : res unit (sloop * cstat) :=
  let '(cs, stat) := sender_recv dec (fo_timeout o) (sl_cs st) e t in
  let same idle := mkSL cs (sl_rate st) (sl_last_sent st) (sl_stats st) (sl_map st) (sl_last_ack st) (sl_left st) idle in
  match e with
  | EvDatagram true wire =>
      match dec wire with
      | None => Ok (same (sl_idle st), stat)
      | Some p =>
          match from_bytes p with
          | Ok (PAck block) =>
              match snd (reader_free (cs_r (sl_cs st)) block) with
              | None => Ok (same 1, stat)
              | Some n =>
                  let '(index, map) := map_index (sl_map st) block in
                  bindp (acknowledged_data (fo_chk o) (sl_rate st) n ((n / fo_bs_enc o) mod U32)) (fun r =>
                  Ok (mkSL cs (fst (end_rtt r t block)) (sl_last_sent st) (sl_stats st) map index (sl_left st) 1, stat))
              end
          | _ => Ok (same 1, stat)
          end
      end
  | EvDatagram false _ => Ok (same (sl_idle st), stat)
  | EvWouldBlock => Ok (same ((sl_idle st + 1) mod 256), stat)
  | EvSocketError => Ok (same (sl_idle st), stat)
  end.
