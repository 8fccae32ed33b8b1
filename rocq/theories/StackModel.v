(** The single threaded server built without the feature alloc: the table of clients and the
    block readers live in maps of fixed capacity, and a client that reads has a handle into one
    of three pools.  src/readers/pool_reader.rs, src/server/readers_available.rs and the
    corresponding branches of src/server/single_thread.rs (feature seek).

    heapless::FnvIndexMap (src/lib.rs 75-79) is a list of entries in the order of insertion
    together with a hash index; the index is left out.  Its source is not part of the repository:
    insert replaces the value of a key it has and otherwise appends unless it is full; remove puts
    the last entry in the place of the one removed; retain keeps the order. *)
From Verif Require Import Base PacketModel MapperModel ReaderModel ConfigModel CryptoModel ExtModel PathModel ConnModel
  HandshakeModel ConnSpec ServerModel.

(** config.rs 41-53 (cfg_stack). *)
Definition MAX_CLIENTS_STACK : nat := 128.
(** src/config.rs 45 MAX_BLOCKS_FOR_MULTI_READER. *)
Definition MAX_BLOCKS_STACK : N := 16.
(** src/config.rs 47. *)
Definition MAX_SINGLE_READERS : nat := 64.
(** src/config.rs 49. *)
Definition MAX_MULTI_READERS : nat := 8.
(** src/config.rs 51. *)
Definition MAX_MULTI_SEEK_READERS : nat := 64.

(** ** heapless::FnvIndexMap with u16 keys *)
Section IndexMap.
Context {V : Type}.
(** heapless::FnvIndexMap (src/lib.rs 75-79) with keys that are numbers. *)
Definition imap := list (N * V).
(** FnvIndexMap::get in src/readers/pool_reader.rs 84-150. *)
Fixpoint im_get (m : imap) (k : N) : option V :=
  match m with [] => None | (j, v) :: m' => if k =? j then Some v else im_get m' k end.
(** FnvIndexMap::contains_key in src/server/single_thread.rs 210. *)
Definition im_contains (m : imap) (k : N) : bool := match im_get m k with Some _ => true | None => false end.
(** get_mut and assignment.  FnvIndexMap (src/lib.rs 75-79), used in src/readers/pool_reader.rs 84-150. *)
Fixpoint im_set (m : imap) (k : N) (v : V) : imap :=
  match m with [] => [] | (j, x) :: m' => if k =? j then (j, v) :: m' else (j, x) :: im_set m' k v end.
(** insert; [None]: the map is full.
    FnvIndexMap (src/lib.rs 75-79), used in src/readers/pool_reader.rs 37-79 and src/server/single_thread.rs 400-406. *)
Definition im_insert (cap : nat) (m : imap) (k : N) (v : V) : option imap :=
  if im_contains m k then Some (im_set m k v)
  else if (length m <? cap)%nat then Some (m ++ [(k, v)]) else None.
(** Part of FnvIndexMap::swap_remove (src/lib.rs 75-79): the last entry takes the place of the removed one. *)
Fixpoint im_replace (m : imap) (k : N) (e : N * V) : imap :=
  match m with [] => [] | (j, x) :: m' => if k =? j then e :: m' else (j, x) :: im_replace m' k e end.
(** remove (swap_remove).  FnvIndexMap (src/lib.rs 75-79), used in src/readers/pool_reader.rs 152-167. *)
Definition im_remove (m : imap) (k : N) : imap :=
  match rev m with
  | [] => []
  | (j, x) :: r => if k =? j then rev r else if im_contains m k then im_replace (rev r) k (j, x) else m
  end.
End IndexMap.
Arguments imap : clear implicits.

(** The first free index: [(0..u16::MAX).find(|k| !p.contains_key(k))] (pool_reader.rs 42-45,
    57-60, 73-76). *)
Fixpoint first_free {V} (m : imap V) (k : N) (fuel : nat) : option N :=
  match fuel with
  | O => None
  | S n => if im_contains m k then first_free m (k + 1) n else Some k
  end.
(** src/readers/pool_reader.rs 37-79: the first index that is not in the pool, of 0..u16::MAX. *)
Definition free_index {V} (m : imap V) : option N := first_free m 0 (N.to_nat 65535).

(** ** src/readers/pool_reader.rs *)
(** Lines 11-27: the pools; a reader holds the file it reads ([bytes]).  The readers behave as
    with alloc ([ReaderModel]): theorem [stack_buffers_same] for the only one that differs. *)
Record pools := mkPools {
  p_single : imap (bytes * sreader); p_multi : imap (bytes * mreader); p_seek : imap (bytes * kreader) }.
(** src/server/single_thread.rs 122-127. *)
Definition pools_new : pools := mkPools [] [] [].
(** Lines 29-34 PoolReader *)
Inductive handle := HSingle (i : N) | HMulti (i : N) | HSeek (i : N).

(** Lines 37-83 from_single, from_multi, from_seek; [None]: no room. *)
Definition pool_from (P : pools) (file : bytes) (r : reader) : option (pools * handle) :=
  match r with
  | RS s =>
      match free_index (p_single P) with
      | None => None
      | Some i =>
          match im_insert MAX_SINGLE_READERS (p_single P) i (file, s) with
          | Some m => Some (mkPools m (p_multi P) (p_seek P), HSingle i)
          | None => None
          end
      end
  | RM s =>
      match free_index (p_multi P) with
      | None => None
      | Some i =>
          match im_insert MAX_MULTI_READERS (p_multi P) i (file, s) with
          | Some m => Some (mkPools (p_single P) m (p_seek P), HMulti i)
          | None => None
          end
      end
  | RK s =>
      match free_index (p_seek P) with
      | None => None
      | Some i =>
          match im_insert MAX_MULTI_SEEK_READERS (p_seek P) i (file, s) with
          | Some m => Some (mkPools (p_single P) (p_multi P) m, HSeek i)
          | None => None
          end
      end
  end.

(** Lines 88-113 next; [None]: "reader does not exist". *)
Definition pool_next (P : pools) (h : handle) (cap : N) (retry io : bool) : option (pools * nextres) :=
  match h with
  | HSingle i =>
      match im_get (p_single P) i with
      | Some (f, s) => let '(s', o) := single_next f s cap retry io in
                       Some (mkPools (im_set (p_single P) i (f, s')) (p_multi P) (p_seek P), o)
      | None => None
      end
  | HMulti i =>
      match im_get (p_multi P) i with
      | Some (f, s) => let '(s', o) := multi_next f s cap retry io in
                       Some (mkPools (p_single P) (im_set (p_multi P) i (f, s')) (p_seek P), o)
      | None => None
      end
  | HSeek i =>
      match im_get (p_seek P) i with
      | Some (f, s) => let '(s', o) := seek_next f s cap retry io in
                       Some (mkPools (p_single P) (p_multi P) (im_set (p_seek P) i (f, s')), o)
      | None => None
      end
  end.
(** Lines 115-134 free_block; [None]: panic. *)
Definition pool_free (P : pools) (h : handle) (block : N) : option (pools * N) :=
  match h with
  | HSingle i =>
      match im_get (p_single P) i with
      | Some (f, s) => let '(s', n) := single_free s block in
                       Some (mkPools (im_set (p_single P) i (f, s')) (p_multi P) (p_seek P), n)
      | None => None
      end
  | HMulti i =>
      match im_get (p_multi P) i with
      | Some (f, s) => let '(s', n) := multi_free s block in
                       Some (mkPools (p_single P) (im_set (p_multi P) i (f, s')) (p_seek P), n)
      | None => None
      end
  | HSeek i =>
      match im_get (p_seek P) i with
      | Some (f, s) =>
          match seek_free s block with
          | (s', Some n) => Some (mkPools (p_single P) (p_multi P) (im_set (p_seek P) i (f, s')), n)
          | (_, None) => None
          end
      | None => None
      end
  end.
(** Lines 136-155 is_finished; [None]: panic. *)
Definition pool_finished (P : pools) (h : handle) : option bool :=
  match h with
  | HSingle i => option_map (fun x => single_finished (snd x)) (im_get (p_single P) i)
  | HMulti i => option_map (fun x => multi_finished (snd x)) (im_get (p_multi P) i)
  | HSeek i => option_map (fun x => seek_finished (snd x)) (im_get (p_seek P) i)
  end.
(** Lines 158-174 drop *)
Definition pool_drop (P : pools) (h : handle) : pools :=
  match h with
  | HSingle i => mkPools (im_remove (p_single P) i) (p_multi P) (p_seek P)
  | HMulti i => mkPools (p_single P) (im_remove (p_multi P) i) (p_seek P)
  | HSeek i => mkPools (p_single P) (p_multi P) (im_remove (p_seek P) i)
  end.

(** ** src/server/readers_available.rs 21-33 from_used, 44-55; the u16 subtractions panic on
    underflow ([None]; overflow checks on). *)
Definition sub_checked (a b : nat) : option nat := if (b <=? a)%nat then Some (a - b)%nat else None.
(** src/server/readers_available.rs 23-33. *)
Definition from_used (single multi seek : nat) : option avail :=
  match sub_checked MAX_SINGLE_READERS single, sub_checked MAX_MULTI_READERS multi,
        sub_checked MAX_MULTI_SEEK_READERS seek with
  | Some s, Some m, Some k => Some (mkAv (0 <? s)%nat (0 <? m)%nat (0 <? k)%nat)
  | _, _, _ => None
  end.

(** ** The clients (single_thread.rs 463-466, ClientType<PoolReader<R>, SingleBlockWriter<W>>) *)
Inductive pwork := XRead (h : handle) | XWrite (path : bytes) (w : writer).
(** src/server/connection.rs 29-59 with PoolReader (src/readers/pool_reader.rs 29-34) as the reader. *)
Record pentry := mkPE { pe_conn : conn; pe_key : option bytes; pe_work : pwork }.
(** src/server/single_thread.rs 129, src/lib.rs 75-79. *)
Definition ptable := list (addr * pentry).
(** FnvIndexMap::get (src/lib.rs 75-79) in src/server/single_thread.rs 239-255. *)
Fixpoint pfind (t : ptable) (a : addr) : option pentry :=
  match t with [] => None | (b, e) :: t' => if a =? b then Some e else pfind t' a end.
(** FnvIndexMap::get_mut (src/lib.rs 75-79) in src/server/single_thread.rs 239-255. *)
Fixpoint pupdate (t : ptable) (a : addr) (e : pentry) : ptable :=
  match t with
  | [] => []
  | (b, x) :: t' => if a =? b then (b, e) :: t' else (b, x) :: pupdate t' a e
  end.

(** helpers/read.rs 25-85 send_data_block over a pool reader. *)
Definition pool_send_data_block (P : pools) (c : conn) (h : handle) (buflen now : N)
    (io sock_ok : bool) (txt : bytes) : option (pools * conn * list bytes * bool) :=
  let retry := retry_due c now in
  let c1 := if retry then set_mult c (sat_add (c_mult c) 2) else c in
  let len := N.max buflen (DATA_PACKET_HEADER_SIZE + op_bs (c_opts c)) in
  match pool_next P h (len - DATA_PACKET_HEADER_SIZE) retry io with
  | None => None
  | Some (P1, res) => Some
      match res with
      | Ok (Some b) =>
          (P1, if sock_ok then set_sent c1 now else c1,
           when sock_ok [to_bytes (PData (o_block b) (o_data b))], sock_ok)
      | Ok None => (P1, c1, [], false)
      | Err RInvalidBuffer =>
          (P1, set_invalid c1 now,
           when sock_ok [to_bytes (PError Undefined (s2b "Storage error occurred"))], false)
      | Err RFile => (P1, set_invalid c1 now, when sock_ok [to_bytes (PError AccessViolation txt)], false)
      | Panic => (P1, c1, [], false)
      end
  end.

(** helpers/read.rs 87-145 handle_read over a pool reader. *)
Definition pool_handle_read (dec : bytes -> option bytes) (P : pools) (c : conn) (h : handle) (wire : bytes) (now : N)
  : option (pools * conn) :=
  match dec wire with
  | None => Some (P, c)
  | Some p =>
      match from_bytes p with
      | Ok (PAck block) =>
          match pool_free P h block with
          | None => None
          | Some (P1, n) =>
              let c1 := if 0 <? n
                        then set_mult (set_progress c now n) (if 0 <? c_mult c - 1 then c_mult c - 1 else 1)
                        else c in
              match pool_finished P1 h with
              | None => None
              | Some fin => Some (P1, if fin then set_finished c1 else c1)
              end
          end
      | Ok (PError _ _) => Some (P, set_invalid c now)
      | _ => Some (P, c)
      end
  end.

(** ** The loop *)
(** src/server/single_thread.rs 113-144: the variables of the loop. *)
Record zstate := mkZ {
  z_clients : ptable; z_pools : pools; z_send : N; z_recv : N; z_wait : wait; z_cleaned : N; z_sockid : N }.
(** single_thread.rs 113-131 *)
Definition z_init (now : N) : zstate := mkZ [] pools_new 0 0 wait_new now 1.

(** Lines 146-151; a client that is removed is dropped, and with it its pool reader. *)
Definition drop_work (P : pools) (w : pwork) : pools := match w with XRead h => pool_drop P h | XWrite _ _ => P end.
(** src/server/single_thread.rs 149-154, src/server/helpers/connection.rs 135-164. *)
Fixpoint z_retain (P : pools) (t : ptable) (timeout : N) (v : addr -> env) : pools * ptable * outs :=
  match t with
  | [] => (P, [], [])
  | (a, e) :: t' =>
      let '(drop, plain) := timeout_client (pe_conn e) timeout (e_now (v a)) (e_sock (v a)) (e_txt (v a)) in
      let P0 := if drop then drop_work P (pe_work e) else P in
      let '(P1, t1, o) := z_retain P0 t' timeout v in
      (P1, if drop then t1 else (a, e) :: t1, plains a plain ++ o)
  end.
(** src/server/single_thread.rs 149-154. *)
Definition z_clean (g : srvcfg) (s : zstate) (i : input) : zstate * outs :=
  if 2000 <? i_now i - z_cleaned s then
    let '(P, t, o) := z_retain (z_pools s) (z_clients s) (g_timeout g) (i_clean i) in
    (mkZ t P (z_send s) (z_recv s) (z_wait s) (i_now i) (z_sockid s), o)
  else (s, []).

(** Lines 419-458; [None]: panic. *)
Definition p_over (e : pentry) : bool :=
  match c_invalid (pe_conn e) with Some _ => true | None => false end || c_finished (pe_conn e).
(** src/server/single_thread.rs 419-466: one pass over the clients. *)
Fixpoint z_pass (buflen : N) (try : N -> bool) (v : addr -> env) (k : N) (P : pools) (t : ptable)
  : option (pools * ptable * outs * option N) :=
  match t with
  | [] => Some (P, [], [], None)
  | (a, e) :: t' =>
      match pe_work e with
      | XRead h =>
          if negb (p_over e) then
            if try k then
              match pool_send_data_block P (pe_conn e) h buflen (e_now (v a)) (e_io (v a)) (e_sock (v a)) (e_txt (v a)) with
              | None => None
              | Some (P1, c1, plain, ok) =>
                  let e1 := mkPE c1 (pe_key e) (pe_work e) in
                  if ok then Some (P1, (a, e1) :: t', plains a plain, Some (k + 1))
                  else match z_pass buflen try v (k + 1) P1 t' with
                       | None => None
                       | Some (P2, t1, o, r) => Some (P2, (a, e1) :: t1, plains a plain ++ o, r)
                       end
              end
            else match z_pass buflen try v (k + 1) P t' with
                 | None => None
                 | Some (P2, t1, o, r) => Some (P2, (a, e) :: t1, o, r)
                 end
          else match z_pass buflen try v k P t' with
               | None => None
               | Some (P2, t1, o, r) => Some (P2, (a, e) :: t1, o, r)
               end
      | XWrite _ _ =>
          match z_pass buflen try v k P t' with
          | None => None
          | Some (P2, t1, o, r) => Some (P2, (a, e) :: t1, o, r)
          end
      end
  end.
(** src/server/single_thread.rs 419-466. *)
Definition z_send_data_blocks (P : pools) (t : ptable) (next : N) (i : input)
  : option (pools * ptable * outs * bool * N) :=
  match z_pass (i_buflen i) (fun k => next <=? k) (i_send1 i) 0 P t with
  | None => None
  | Some (P1, t1, o1, Some n) => Some (P1, t1, o1, true, n)
  | Some (P1, t1, o1, None) =>
      match z_pass (i_buflen i) (fun k => k <? next) (i_send2 i) 0 P1 t1 with
      | None => None
      | Some (P2, t2, o2, Some n) => Some (P2, t2, o1 ++ o2, true, n)
      | Some (P2, t2, o2, None) => Some (P2, t2, o1 ++ o2, false, next)
      end
  end.
(** src/server/single_thread.rs 156-162. *)
Definition z_step_send (s : zstate) (i : input) : option (zstate * outs) :=
  match z_send_data_blocks (z_pools s) (z_clients s) (z_send s) i with
  | None => None
  | Some (P, t, o, sent, next) =>
      Some (mkZ t P next (z_recv s) (wait_sending (z_wait s) sent) (z_cleaned s) (z_sockid s), o)
  end.

(** Lines 168-191, as in [ServerModel.scan]. *)
Fixpoint z_scan (rx : addr -> option bytes) (skip cursor : N) (t : ptable) : option (addr * bytes) * N :=
  match t with
  | [] => (None, cursor)
  | (a, _) :: t' =>
      if 0 <? skip then z_scan rx (skip - 1) cursor t'
      else match rx a with
           | Some d => (Some (a, d), cursor + 1)
           | None => z_scan rx 0 (cursor + 1) t'
           end
  end.

(** Lines 229-246; decryption comes first in both handlers. *)
Definition p_decrypt (c : crypto) (e : pentry) (wire : bytes) : res unit bytes :=
  server_decrypt c (op_enc (c_opts (pe_conn e))) (pe_key e) wire.
(** src/server/connection.rs 70-104. *)
Definition p_dec (c : crypto) (e : pentry) (wire : bytes) : option bytes :=
  match p_decrypt c e wire with Ok p => Some p | _ => None end.
(** src/server/single_thread.rs 239-255, src/server/helpers/read.rs 87-145, src/server/helpers/write.rs 23-127. *)
Definition z_handle_client (c : crypto) (max : N) (P : pools) (e : pentry) (wire : bytes) (v : env)
  : option (pools * pentry * list bytes) :=
  match p_decrypt c e wire with
  | Panic => None
  | _ =>
      match pe_work e with
      | XRead h =>
          match pool_handle_read (p_dec c e) P (pe_conn e) h wire (e_now v) with
          | Some (P1, k) => Some (P1, mkPE k (pe_key e) (XRead h), [])
          | None => None
          end
      | XWrite path w =>
          let '(k, w', plain) :=
            handle_write (p_dec c e) (pe_conn e) w wire (e_now v) max (e_io v) (e_short v) (e_sock v) (e_txt v) in
          Some (P, mkPE k (pe_key e) (XWrite path w'), plain)
      end
  end.
(** src/server/single_thread.rs 239-255. *)
Definition z_known (c : crypto) (g : srvcfg) (s : zstate) (a : addr) (e : pentry) (d : bytes) (v : env)
  : option (zstate * outs) :=
  match z_handle_client c (g_max_size g) (z_pools s) e d v with
  | None => None
  | Some (P, e', plain) =>
      Some (mkZ (pupdate (z_clients s) a e') P (z_send s) (z_recv s) (z_wait s) (z_cleaned s) (z_sockid s),
            plains a plain)
  end.

(** Lines 247-385 without alloc: the reader kinds left (299-307; computed here for uploads as
    well, which makes no difference as it cannot fail: [pools_within_limits]), the new reader put
    into its pool (355-381), the entry put into the table (390-393): if that fails the entry,
    and with it the pool reader, is dropped. *)
Definition reply_out (a : addr) (reply : option bytes) : outs :=
  match reply with Some w => [(a, OWire w)] | None => [] end.
(** src/server/single_thread.rs 256-416. *)
Definition z_new_client (c : crypto) (g : srvcfg) (s : zstate) (a : addr) (d : bytes) (i : input)
  : option (zstate * outs) :=
  if g_max_conn g <=? N.of_nat (length (z_clients s)) then Some (s, [])
  else
    match from_used (length (p_single (z_pools s))) (length (p_multi (z_pools s))) (length (p_seek (z_pools s))) with
    | None => None
    | Some av =>
        match server_new c (g_cfg g) (i_henv i) av d with
        | SPanic => None
        | SRefused reply => Some (s, reply_out a reply)
        | SAccepted x reply =>
            let id := next_socket_id (z_sockid s) in
            let with_ t P := mkZ t P (z_send s) (z_recv s) (z_wait s) (z_cleaned s) id in
            let k := conn_new (es_opts x) (e_now (i_env i)) in
            match es_reader x with
            | Some r =>
                match pool_from (z_pools s) (i_file i (es_path x)) r with
                | None => Some (with_ (z_clients s) (z_pools s), reply_out a reply)
                | Some (P, h) =>
                    if (length (z_clients s) <? MAX_CLIENTS_STACK)%nat
                    then Some (with_ (z_clients s ++ [(a, mkPE k (es_key x) (XRead h))]) P, reply_out a reply)
                    else Some (with_ (z_clients s) (pool_drop P h), reply_out a reply)
                end
            | None =>
                if (length (z_clients s) <? MAX_CLIENTS_STACK)%nat
                then Some (with_ (z_clients s ++ [(a, mkPE k (es_key x) (XWrite (es_path x) writer_new))]) (z_pools s),
                           reply_out a reply)
                else Some (with_ (z_clients s) (z_pools s), reply_out a reply)
            end
        end
    end.

(** Record update; src/server/single_thread.rs 113-144. *)
Definition z_set_recv (s : zstate) (n : N) (w : wait) : zstate :=
  mkZ (z_clients s) (z_pools s) (z_send s) n w (z_cleaned s) (z_sockid s).
(** Lines 168-393. *)
Definition z_step_recv (c : crypto) (g : srvcfg) (s : zstate) (i : input) : option (zstate * outs) :=
  let '(found, cursor) := z_scan (i_rx i) (z_recv s) (z_recv s) (z_clients s) in
  match found with
  | Some (a, d) =>
      let s1 := z_set_recv s cursor (wait_receiving (z_wait s)) in
      match pfind (z_clients s) a with
      | Some e => z_known c g s1 a e (recv_cut g d) (i_env i)
      | None => None
      end
  | None =>
      match i_main i with
      | MData from d =>
          match pfind (z_clients s) from with
          | Some _ => Some (z_set_recv s 0 (z_wait s), [])
          | None => z_new_client c g (z_set_recv s 0 (wait_receiving (z_wait s))) from (recv_cut g d) i
          end
      | MWouldBlock => Some (z_set_recv s 0 (wait_receiver_idle (z_wait s)), [])
      | MError => None
      end
  end.
(** Lines 143-395. *)
Definition z_step (c : crypto) (g : srvcfg) (s : zstate) (i : input) : option (zstate * outs) :=
  let '(s1, o1) := z_clean g s i in
  match z_step_send s1 i with
  | None => None
  | Some (s2, o2) =>
      match z_step_recv c g s2 i with
      | Some (s3, o3) => Some (s3, o1 ++ o2 ++ o3)
      | None => None
      end
  end.
(** src/server/single_thread.rs 146-416: the states at the beginning of a turn. *)
Inductive zreach (c : crypto) (g : srvcfg) : zstate -> Prop :=
| zreach_init now : zreach c g (z_init now)
| zreach_step s i s' o : zreach c g s -> z_step c g s i = Some (s', o) -> zreach c g s'.

(** ** src/readers/multiple_block_reader.rs without alloc
    Lines 192-193: the buffers are a heapless Vec of capacity MAX_BLOCKS_FOR_MULTI_READER; a push
    that fails is ignored (line 111), and the last buffer is then used whatever it holds.  With
    [cap] the capacity; otherwise as [ReaderModel.multi_next]. *)
Fixpoint set_last (l : list mbuf) (nb : mbuf) : list mbuf :=
  match l with [] => [] | [_] => [nb] | b :: l' => b :: set_last l' nb end.
(** src/readers/multiple_block_reader.rs 105-112, 172-173, where heapless::Vec (src/config.rs 45) refuses the push. *)
Definition stack_multi_next (blocks_cap : N) (file : bytes) (r : mreader) (cap : N) (retry io : bool)
  : mreader * nextres :=
  if multi_finished r then (r, Ok None)
  else
    let upd_read n := ReaderModel.mkM (r_pos r) (r_map r) n (r_bs r) (r_blocks r) (r_max r) (r_fin r) in
    match (if retry then min_buf (r_blocks r) else None) with
    | Some (i, d) =>
        let r1 := upd_read i in
        if blen d <=? cap then (r1, Ok (Some (mkBlk (map_block i) i d true)))
        else (r1, Err RInvalidBuffer)
    | None =>
        let index := r_read r + 1 in
        match find_buf (r_blocks r) index with
        | Some d =>
            if blen d <=? cap then
              (upd_read index, Ok (Some (mkBlk (map_block index) index d true)))
            else (r, Err RInvalidBuffer)
        | None =>
            if r_fin r || (r_max r <=? in_use (r_blocks r)) then (r, Ok None)
            else
              let full := negb (N.of_nat (length (r_blocks r)) <? blocks_cap) in
              let blocks1 := match free_slot (r_blocks r) with
                             | Some _ => r_blocks r
                             | None => if full then r_blocks r
                                       else r_blocks r ++ [mkB (repeat 0 (N.to_nat (r_bs r))) None]
                             end in
              let slot := match free_slot blocks1 with
                          | Some d => d
                          | None => b_data (last blocks1 (mkB [] None))
                          end in
              let put nb := match free_slot blocks1 with Some _ => set_slot blocks1 nb | None => set_last blocks1 nb end in
              if io then
                (ReaderModel.mkM (r_pos r) (r_map r) (r_read r) (r_bs r) blocks1 (r_max r) (r_fin r), Err RFile)
              else
                let data := file_read file (r_pos r) (blen slot) in
                let read := blen data in
                if read <=? cap then
                  (ReaderModel.mkM (r_pos r + read) (r_map r) index (r_bs r)
                       (put (mkB data (Some index))) (r_max r)
                       (if read <? r_bs r then true else r_fin r),
                   Ok (Some (mkBlk (map_block index) index data false)))
                else
                  (ReaderModel.mkM (r_pos r + read) (r_map r) (r_read r) (r_bs r)
                       (put (mkB data (match free_slot blocks1 with Some _ => None | None => b_index (last blocks1 (mkB [] None)) end))) (r_max r) (r_fin r),
                   Err RInvalidBuffer)
        end
    end.
