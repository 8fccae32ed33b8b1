(** Models of the three block readers and of the block writer:
    src/readers/{single_block_reader,multiple_block_reader,multiple_block_seek_reader}.rs,
    src/writers/single_block_writer.rs.

    The file behind a reader is an immutable byte string plus a position.  [read] follows
    the contract of a regular file: it returns [min n (remaining)] bytes.  A read (or seek)
    may fail: the flag [io] of [next] tells whether the underlying device fails.
    Counters are unbounded [N] (u64 overflow is not modelled). *)
From Verif Require Import Base PacketModel MapperModel.

(** std::io::Read::read on a regular file at position [pos] with a buffer of [n] bytes.
    Called in src/readers/single_block_reader.rs, src/readers/multiple_block_reader.rs 116 and src/readers/multiple_block_seek_reader.rs. *)
Definition file_read (file : bytes) (pos n : N) : bytes := takeN n (dropN pos file).

(** src/readers/block_reader.rs 13-19 Block, together with the bytes it put in the caller's
    buffer ([size] is their number). *)
Record blockout := mkBlk { o_block : N; o_index : N; o_data : bytes; o_retry : bool }.

(** src/error.rs 161-167 StorageError as far as readers raise it. *)
Inductive rerr : Set := RFile | RInvalidBuffer.

(** Result of BlockReader::next.  src/readers/block_reader.rs 5, 14-19. *)
Definition nextres := res rerr (option blockout).

(** ** src/readers/single_block_reader.rs *)
(** lines 13-21 *)
Record sreader := mkS {
  s_pos : N; s_map : mapper; s_read : N; s_bs : N;
  s_last : option N; s_buf : bytes; s_fin : bool }.
(** lines 24-34; the block buffer is zero filled. *)
Definition single_new (bs : N) : sreader :=
  mkS 0 mapper_new 0 bs None (repeat 0 (N.to_nat bs)) false.
(** lines 100-102 is_finished *)
Definition single_finished (s : sreader) : bool :=
  match s_last s with None => s_fin s | Some _ => false end.
(** lines 41-91 next; [cap] is the length of the caller's buffer *)
Definition single_next (file : bytes) (s : sreader) (cap : N) (retry io : bool)
  : sreader * nextres :=
  if single_finished s then (s, Ok None)
  else match s_last s with
  | Some _ =>
      if retry then
        if blen (s_buf s) <=? cap then
          (s, Ok (Some (mkBlk (map_block (s_read s)) (s_read s) (s_buf s) true)))
        else (s, Err RInvalidBuffer)
      else (s, Ok None)
  | None =>
      if io then (s, Err RFile)
      else
        let data := file_read file (s_pos s) (blen (s_buf s)) in
        let read := blen data in
        let s1 := mkS (s_pos s + read) (s_map s) (s_read s) (s_bs s) (s_last s) data (s_fin s) in
        if read <=? cap then
          let s2 := mkS (s_pos s1) (s_map s1) (s_read s1 + 1) (s_bs s1)
                        (Some (read mod 65536)) data
                        (if read <? s_bs s1 then true else s_fin s1) in
          (s2, Ok (Some (mkBlk (map_block (s_read s2)) (s_read s2) data false)))
        else (s1, Err RInvalidBuffer)
  end.
(** lines 93-98 free_block *)
Definition single_free (s : sreader) (block : N) : sreader * N :=
  let '(i, m) := map_index (s_map s) block in
  if s_read s =? i then
    (mkS (s_pos s) m (s_read s) (s_bs s) None (s_buf s) (s_fin s),
     match s_last s with Some n => n | None => 0 end)
  else (mkS (s_pos s) m (s_read s) (s_bs s) (s_last s) (s_buf s) (s_fin s), 0).

(** ** src/readers/multiple_block_reader.rs *)
(** lines 170-190 Buffer *)
Record mbuf := mkB { b_data : bytes; b_index : option N }.
(** lines 15-24 *)
Record mreader := mkM {
  r_pos : N; r_map : mapper; r_read : N; r_bs : N;
  r_blocks : list mbuf; r_max : N; r_fin : bool }.
(** lines 27-43 *)
Definition multi_new (bs max : N) : mreader := mkM 0 mapper_new 0 bs [] max false.
(** number of buffers in use: [blocks.iter().filter(|b| b.index.is_some()).count()].
    src/readers/multiple_block_reader.rs 98-103, 165-167, 175-179. *)
Definition in_use (l : list mbuf) : N :=
  N.of_nat (length (filter (fun b => match b_index b with Some _ => true | None => false end) l)).
(** lines 165-167 is_finished *)
Definition multi_finished (r : mreader) : bool := (in_use (r_blocks r) =? 0) && r_fin r.
(** lines 57-61: buffer with the smallest index, the first one if several. *)
Fixpoint min_buf (l : list mbuf) : option (N * bytes) :=
  match l with
  | [] => None
  | b :: l' =>
      match b_index b, min_buf l' with
      | None, r => r
      | Some i, None => Some (i, b_data b)
      | Some i, Some (j, d) => if j <? i then Some (j, d) else Some (i, b_data b)
      end
  end.
(** lines 82-83 [blocks.iter().find(|b| b.index == Some(index))] *)
Fixpoint find_buf (l : list mbuf) (i : N) : option bytes :=
  match l with
  | [] => None
  | b :: l' => if match b_index b with Some j => j =? i | None => false end
               then Some (b_data b) else find_buf l' i
  end.
(** lines 107-114, 118-131: read into the first free buffer, or into a new one. *)
Fixpoint free_slot (l : list mbuf) : option bytes :=
  match l with
  | [] => None
  | b :: l' => match b_index b with None => Some (b_data b) | Some _ => free_slot l' end
  end.
(** src/readers/multiple_block_reader.rs 105-107: the first buffer without an index is filled. *)
Fixpoint set_slot (l : list mbuf) (nb : mbuf) : list mbuf :=
  match l with
  | [] => []
  | b :: l' => match b_index b with None => nb :: l' | Some _ => b :: set_slot l' nb end
  end.
(** lines 50-141 next *)
Definition multi_next (file : bytes) (r : mreader) (cap : N) (retry io : bool)
  : mreader * nextres :=
  if multi_finished r then (r, Ok None)
  else
    let upd_read n := mkM (r_pos r) (r_map r) n (r_bs r) (r_blocks r) (r_max r) (r_fin r) in
    match (if retry then min_buf (r_blocks r) else None) with
    | Some (i, d) =>
        let r1 := upd_read i in
        if blen d <=? cap then (r1, Ok (Some (mkBlk (map_block i) i d true)))
        else (r1, Err RInvalidBuffer)
    | None =>
        let index := r_read r + 1 in
        match find_buf (r_blocks r) index with
        | Some d =>
            if blen d <=? cap then
              (upd_read index, Ok (Some (mkBlk (map_block index) index d true)))
            else (r, Err RInvalidBuffer)
        | None =>
            if r_fin r || (r_max r <=? in_use (r_blocks r)) then (r, Ok None)
            else
              let blocks1 := match free_slot (r_blocks r) with
                             | Some _ => r_blocks r
                             | None => r_blocks r ++ [mkB (repeat 0 (N.to_nat (r_bs r))) None]
                             end in
              let slot := match free_slot blocks1 with Some d => d | None => [] end in
              if io then
                (mkM (r_pos r) (r_map r) (r_read r) (r_bs r) blocks1 (r_max r) (r_fin r), Err RFile)
              else
                let data := file_read file (r_pos r) (blen slot) in
                let read := blen data in
                if read <=? cap then
                  (mkM (r_pos r + read) (r_map r) index (r_bs r)
                       (set_slot blocks1 (mkB data (Some index))) (r_max r)
                       (if read <? r_bs r then true else r_fin r),
                   Ok (Some (mkBlk (map_block index) index data false)))
                else
                  (mkM (r_pos r + read) (r_map r) (r_read r) (r_bs r)
                       (set_slot blocks1 (mkB data None)) (r_max r) (r_fin r),
                   Err RInvalidBuffer)
        end
    end.
(** lines 146-158: release every buffer with index at most [i], adding up sizes and
    remembering the highest released index. *)
Fixpoint release (l : list mbuf) (i : N) : list mbuf * N * option N :=
  match l with
  | [] => ([], 0, None)
  | b :: l' =>
      let '(l1, size, last) := release l' i in
      match b_index b with
      | Some j =>
          if j <=? i then
            (mkB (b_data b) None :: l1, blen (b_data b) + size,
             Some (match last with Some k => N.max j k | None => j end))
          else (b :: l1, size, last)
      | None => (b :: l1, size, last)
      end
  end.
(** lines 143-163 free_block *)
Definition multi_free (r : mreader) (block : N) : mreader * N :=
  let '(i, m) := map_index (r_map r) block in
  let '(blocks, size, last) := release (r_blocks r) i in
  (mkM (r_pos r) m (match last with Some k => k | None => r_read r end)
       (r_bs r) blocks (r_max r) (r_fin r), size).

(** ** src/readers/multiple_block_seek_reader.rs *)
(** lines 11-22 *)
Record kreader := mkK {
  k_pos : N; k_map : mapper; k_read : N; k_conf : N; k_cur : N; k_bs : N;
  k_off : N; k_max : N; k_fin : option N }.
(** lines 24-39 *)
Definition seek_new (bs max : N) : kreader := mkK 0 mapper_new 0 0 0 bs 0 max None.
(** lines 162-164 is_finished *)
Definition seek_finished (k : kreader) : bool :=
  (k_read k =? k_conf k) && match k_fin k with Some _ => true | None => false end.
(** lines 46-137 next.  Simplification: a failing seek is the same event as a failing read. *)
Definition seek_next (file : bytes) (k : kreader) (cap : N) (retry io : bool)
  : kreader * nextres :=
  if seek_finished k then (k, Ok None)
  else
    let block_len := k_read k - k_conf k in
    let at_pos p := mkK p (k_map k) (k_read k) (k_conf k) (k_cur k) (k_bs k) (k_off k) (k_max k) (k_fin k) in
    if retry && (k_conf k <? k_read k) then
      let off := k_conf k * k_bs k in
      if io then (k, Err RFile)
      else if k_bs k <=? cap then
          let data := file_read file off (k_bs k) in
          let cur := if 0 <? k_conf k then k_conf k + 1 else 1 in
          (mkK (off + blen data) (k_map k) (k_read k) (k_conf k) cur (k_bs k) (k_off k) (k_max k) (k_fin k),
           Ok (Some (mkBlk (map_block cur) cur data true)))
      else (at_pos off, Err RInvalidBuffer)
    else
      let index := k_cur k + 1 in
      if index <=? k_read k then
        let off := k_cur k * k_bs k in
        if io then (k, Err RFile)
        else if k_bs k <=? cap then
            let data := file_read file off (k_bs k) in
            (mkK (off + blen data) (k_map k) (k_read k) (k_conf k) index (k_bs k) (k_off k) (k_max k) (k_fin k),
             Ok (Some (mkBlk (map_block index) index data true)))
        else (at_pos off, Err RInvalidBuffer)
      else if match k_fin k with Some _ => true | None => false end || (k_max k <=? block_len)
      then (k, Ok None)
      else
        (* 113-116: seek to last_offset unless already there *)
        if k_bs k <=? cap then
          if io then (at_pos (k_off k), Err RFile)
          else
            let data := file_read file (k_off k) (k_bs k) in
            let read := blen data in
            (mkK (k_off k + read) (k_map k) index (k_conf k) index (k_bs k) (k_off k + read) (k_max k)
                 (if read <? k_bs k then Some (read mod 65536) else k_fin k),
             Ok (Some (mkBlk (map_block index) index data false)))
        else (at_pos (k_off k), Err RInvalidBuffer).
(** lines 139-160 free_block; the usize subtraction on line 151 panics on underflow
    (overflow checks on) - [None]. *)
Definition seek_free (k : kreader) (block : N) : kreader * option N :=
  let '(i0, m) := map_index (k_map k) block in
  if k_conf k <? i0 then
    let i := if k_read k <? i0 then k_read k else i0 in
    let size := (i - k_conf k) * k_bs k in
    let size' :=
      if i =? k_read k then
        match k_fin k with
        | Some s => if k_bs k <=? size then Some (size - k_bs k + s) else None
        | None => Some size
        end
      else Some size in
    (mkK (k_pos k) m (k_read k) i i (k_bs k) (k_off k) (k_max k) (k_fin k), size')
  else
    (mkK (k_pos k) m (k_read k) (k_conf k) (k_cur k) (k_bs k) (k_off k) (k_max k) (k_fin k), Some 0).

(** ** src/readers/mod.rs / dyn BlockReader: any of the readers *)
(** src/readers/block_reader.rs 3-12, src/readers/mod.rs 18-24. *)
Inductive reader := RS (s : sreader) | RM (r : mreader) | RK (k : kreader).
(** src/readers/mod.rs 29-36, src/readers/block_reader.rs 5. *)
Definition reader_next (file : bytes) (r : reader) (cap : N) (retry io : bool) : reader * nextres :=
  match r with
  | RS s => let '(s', o) := single_next file s cap retry io in (RS s', o)
  | RM m => let '(m', o) := multi_next file m cap retry io in (RM m', o)
  | RK k => let '(k', o) := seek_next file k cap retry io in (RK k', o)
  end.
(** src/readers/mod.rs 37-40, src/readers/block_reader.rs 8. *)
Definition reader_free (r : reader) (block : N) : reader * option N :=
  match r with
  | RS s => let '(s', n) := single_free s block in (RS s', Some n)
  | RM m => let '(m', n) := multi_free m block in (RM m', Some n)
  | RK k => let '(k', n) := seek_free k block in (RK k', n)
  end.
(** src/readers/mod.rs 41-44, src/readers/block_reader.rs 10. *)
Definition reader_finished (r : reader) : bool :=
  match r with
  | RS s => single_finished s
  | RM m => multi_finished m
  | RK k => seek_finished k
  end.

(** ** src/writers/single_block_writer.rs *)
(** lines 10-24; the output is the byte string written so far. *)
Record writer := mkW { w_out : bytes; w_map : mapper; w_written : N }.
(** src/writers/single_block_writer.rs 17-24. *)
Definition writer_new : writer := mkW [] mapper_new 0.
(** src/error.rs 155-167 as raised by write_block: (current block, current index). *)
Inductive werr : Set :=
| AlreadyWritten (current current_index : N)
| ExpectedBlock (current current_index : N)
| WFile.
(** lines 30-58 write_block.  [io]: the device fails.  [short]: number of bytes the device
    actually takes if it performs a partial write ([None] = all), whose count the code
    returns but otherwise ignores. *)
Definition write_block (w : writer) (block : N) (data : bytes) (io : bool) (short : option N)
  : writer * res werr (N * N) :=
  let '(provided, m) := map_index (w_map w) block in
  let expected := w_written w + 1 in
  let w1 := mkW (w_out w) m (w_written w) in
  if provided <? expected then (w1, Err (AlreadyWritten (map_block (w_written w)) (w_written w)))
  else if expected <? provided then (w1, Err (ExpectedBlock (map_block (w_written w)) (w_written w)))
  else if io then (w1, Err WFile)
  else
    let taken := match short with Some n => takeN n data | None => data end in
    (mkW (w_out w ++ taken) m expected, Ok (blen taken, expected)).
