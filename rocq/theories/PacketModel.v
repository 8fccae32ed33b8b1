(** Model of src/packet.rs (wire format) and of the byte copying of
    src/buffer.rs.  Feature set: default (alloc), so strings are unbounded. *)
From Verif Require Import Base.

(** src/packet.rs 207-227: the option names; declaration order is the order in
    which a BTreeMap<Extension, _> iterates (derive(Ord)). *)
Inductive ext : Set :=
| BlockSize | Timeout | TransferSize | EncLevel | WindowSize
| SessionPublicKey | AuthPublicKey | Signature.

(** src/packet.rs 233-244 Extension::as_str. *)
Definition ext_name (e : ext) : bytes :=
  match e with
  | BlockSize => s2b "blksize"
  | Timeout => s2b "timeout"
  | TransferSize => s2b "tsize"
  | EncLevel => s2b "enclevel"
  | WindowSize => s2b "windowsize"
  | SessionPublicKey => s2b "spubk"
  | AuthPublicKey => s2b "apubk"
  | Signature => s2b "sig"
  end.

(** src/packet.rs 247-263 Extension::from_str. *)
Definition ext_parse (s : bytes) : option ext :=
  if beq s (s2b "blksize") || beq s (s2b "BLKSIZE") then Some BlockSize
  else if beq s (s2b "timeout") || beq s (s2b "TIMEOUT") then Some Timeout
  else if beq s (s2b "tsize") || beq s (s2b "TSIZE") then Some TransferSize
  else if beq s (s2b "spubk") || beq s (s2b "SPUBK") then Some SessionPublicKey
  else if beq s (s2b "apubk") || beq s (s2b "APUBK") then Some AuthPublicKey
  else if beq s (s2b "sig") || beq s (s2b "SIG") then Some Signature
  else if beq s (s2b "enclevel") || beq s (s2b "ENCLEVEL") then Some EncLevel
  else if beq s (s2b "windowsize") || beq s (s2b "WINDOWSIZE") then Some WindowSize
  else None.

(** src/packet.rs 19-20 PacketExtensions = BTreeMap<Extension, String>.  A finite
    map over an eight element key type is an eight field record. *)
Record exts := mkExts {
  x_blk : option bytes; x_timeout : option bytes; x_tsize : option bytes;
  x_enc : option bytes; x_win : option bytes; x_spk : option bytes;
  x_apk : option bytes; x_sig : option bytes }.

(** BTreeMap::new.  src/packet.rs 19, src/lib.rs 69-73. *)
Definition exts_empty : exts := mkExts None None None None None None None None.

(** BTreeMap::get.  src/packet.rs 19, src/lib.rs 69-73. *)
Definition ext_get (m : exts) (e : ext) : option bytes :=
  match e with
  | BlockSize => x_blk m | Timeout => x_timeout m | TransferSize => x_tsize m
  | EncLevel => x_enc m | WindowSize => x_win m | SessionPublicKey => x_spk m
  | AuthPublicKey => x_apk m | Signature => x_sig m
  end.

(** BTreeMap::insert / remove ([v = None]).  src/packet.rs 19, src/lib.rs 69-73. *)
Definition ext_put (m : exts) (e : ext) (v : option bytes) : exts :=
  let '(mkExts a b c d f g h i) := m in
  match e with
  | BlockSize => mkExts v b c d f g h i
  | Timeout => mkExts a v c d f g h i
  | TransferSize => mkExts a b v d f g h i
  | EncLevel => mkExts a b c v f g h i
  | WindowSize => mkExts a b c d v g h i
  | SessionPublicKey => mkExts a b c d f v h i
  | AuthPublicKey => mkExts a b c d f g v i
  | Signature => mkExts a b c d f g h v
  end.
(** BTreeMap::insert; src/packet.rs 19. *)
Definition ext_insert (m : exts) (e : ext) (v : bytes) : exts := ext_put m e (Some v).
(** BTreeMap::remove; src/packet.rs 19. *)
Definition ext_remove (m : exts) (e : ext) : exts := ext_put m e None.

(** All keys in iteration order (derive(Ord) on src/packet.rs 207). *)
Definition all_exts : list ext :=
  [BlockSize; Timeout; TransferSize; EncLevel; WindowSize;
   SessionPublicKey; AuthPublicKey; Signature].

(** BTreeMap::into_iter.  In the order of the enum; src/packet.rs 209-228, 325-336. *)
Definition ext_list (m : exts) : list (ext * bytes) :=
  flat_map (fun e => match ext_get m e with Some v => [(e, v)] | None => [] end) all_exts.

(** BTreeMap::len / is_empty.  src/packet.rs 19. *)
Definition ext_len (m : exts) : N := N.of_nat (length (ext_list m)).

(** src/error.rs 114-121: the errors a decoder can return. *)
Inductive perr : Set := EInvalid | EUtf8 | EMode.
(** src/error.rs 153 PacketResult. *)
Definition pres (A : Type) := res perr A.

(** src/packet.rs 552-560 try_from: first two bytes, big endian. *)
Definition try_from (l : bytes) : pres N :=
  match l with
  | a :: b :: _ => Ok (un16 a b)
  | _ => Err EInvalid
  end.

(** One iteration of the loop in OptionalAck::from_bytes, src/packet.rs 282-299:
    a NUL terminated name and a NUL terminated value, both UTF-8. *)
Definition oack_pair (rest : bytes) : pres (bytes * bytes * bytes) :=
  match split_nul rest with
  | None => Err EInvalid
  | Some (name, next) =>
      if utf8 name then
        match split_nul next with
        | None => Err EInvalid
        | Some (value, next') =>
            if utf8 value then Ok (name, value, next') else Err EUtf8
        end
      else Err EUtf8
  end.

(** src/packet.rs 296-298: known names are stored, unknown ones skipped.  [value.parse()]
    to String is infallible with the alloc feature. *)
Definition oack_store (m : exts) (name value : bytes) : exts :=
  match ext_parse name with
  | Some e => ext_insert m e value
  | None => m
  end.

(** src/packet.rs 278-306 OptionalAck::from_bytes: the [while] loop.  Each iteration
    consumes at least two bytes, so [length bytes] iterations suffice; running out
    of fuel is reported as [Panic] and proved impossible. *)
Fixpoint oack_loop (fuel : nat) (rest : bytes) (m : exts) : pres exts :=
  if ext_len m <? 8 then
    match fuel with
    | O => Panic
    | S f =>
        match oack_pair rest with
        | Ok (name, value, next) =>
            let m' := oack_store m name value in
            match next with
            | [] => Ok m'
            | _ => oack_loop f next m'
            end
        | Err e => Err e
        | Panic => Panic
        end
    end
  else Ok m.
(** src/packet.rs 278-307. *)
Definition oack_from_bytes (l : bytes) : pres exts :=
  oack_loop (S (length l)) l exts_empty.

(** src/packet.rs 308-323 OptionalAck::to_bytes. *)
Definition oack_to_bytes (m : exts) : bytes :=
  flat_map (fun '(e, v) => ext_name e ++ [0] ++ v ++ [0]) (ext_list m).

(** src/packet.rs 337-342 RequestPacket (Mode has the single value Octet, 178-188). *)
Record request := mkReq { rq_name : bytes; rq_exts : exts }.

(** src/packet.rs 184-205 Mode::as_str. *)
Definition mode_octet : bytes := s2b "octet".

(** src/packet.rs 345-371 RequestPacket::from_bytes. *)
Definition request_from_bytes (l : bytes) : pres request :=
  match split_nul l with
  | None => Err EInvalid
  | Some (name, rest) =>
      if utf8 name then
        match split_nul rest with
        | None => Err EInvalid
        | Some (mode, rest') =>
            if utf8 mode then
              if beq mode mode_octet then
                match rest' with
                | [] => Ok (mkReq name exts_empty)
                | _ =>
                    match oack_from_bytes rest' with
                    | Ok m => Ok (mkReq name m)
                    | Err e => Err e
                    | Panic => Panic
                    end
                end
              else Err EMode
            else Err EUtf8
        end
      else Err EUtf8
  end.

(** src/packet.rs 387-401 RequestPacket::to_bytes. *)
Definition request_to_bytes (r : request) : bytes :=
  rq_name r ++ [0] ++ mode_octet ++ [0] ++ oack_to_bytes (rq_exts r).

(** src/packet.rs 456-468 ErrorCode; 487-499 from_repr; [code as u16]. *)
Inductive ecode : Set :=
| Undefined | FileNotFound | AccessViolation | DiskFull | IllegalOperation
| UnknownId | FileAlreadyExists | NotSuchUser.
(** src/packet.rs 457-467 (repr(u16)). *)
Definition ecode_num (c : ecode) : N :=
  match c with
  | Undefined => 0 | FileNotFound => 1 | AccessViolation => 2 | DiskFull => 3
  | IllegalOperation => 4 | UnknownId => 5 | FileAlreadyExists => 6 | NotSuchUser => 7
  end.
(** src/packet.rs 485-498. *)
Definition ecode_of (n : N) : option ecode :=
  match n with
  | 0 => Some Undefined | 1 => Some FileNotFound | 2 => Some AccessViolation
  | 3 => Some DiskFull | 4 => Some IllegalOperation | 5 => Some UnknownId
  | 6 => Some FileAlreadyExists | 7 => Some NotSuchUser
  | _ => None
  end.

(** src/packet.rs 31-38 Packet. *)
Inductive packet : Type :=
| PRead (r : request)
| PWrite (r : request)
| PData (block : N) (data : bytes)
| PAck (block : N)
| PError (code : ecode) (msg : bytes)
| POack (m : exts).

(** src/packet.rs 134-168 PacketType: repr(u16), 1..6. *)
Definition opcode (p : packet) : N :=
  match p with
  | PRead _ => 1 | PWrite _ => 2 | PData _ _ => 3 | PAck _ => 4
  | PError _ _ => 5 | POack _ => 6
  end.

(** src/packet.rs 410-418 DataPacket::from_bytes. *)
Definition data_from_bytes (l : bytes) : pres packet :=
  match try_from l with
  | Ok b => Ok (PData b (dropN 2 l))
  | Err e => Err e
  | Panic => Panic
  end.

(** src/packet.rs 441-445 AckPacket::from_bytes. *)
Definition ack_from_bytes (l : bytes) : pres packet :=
  match try_from l with
  | Ok b => Ok (PAck b)
  | Err e => Err e
  | Panic => Panic
  end.

(** src/packet.rs 514-530 ErrorPacket::from_bytes ([size_of_val(&code)] is 2: repr(u16)). *)
Definition error_from_bytes (l : bytes) : pres packet :=
  match try_from l with
  | Ok n =>
      match ecode_of n with
      | None => Err EInvalid
      | Some c =>
          match split_nul (dropN 2 l) with
          | None => Err EInvalid
          | Some (msg, _) => if utf8 msg then Ok (PError c msg) else Err EUtf8
          end
      end
  | Err e => Err e
  | Panic => Panic
  end.

(** Sequencing helper for Result ([?] operator).  In src/packet.rs 55-68. *)
Definition pmap {A B} (f : A -> B) (r : pres A) : pres B :=
  match r with Ok a => Ok (f a) | Err e => Err e | Panic => Panic end.

(** src/packet.rs 55-68 Packet::from_bytes with PacketType::from_bytes (146-163). *)
Definition from_bytes (l : bytes) : pres packet :=
  match try_from l with
  | Ok op =>
      let remaining := dropN 2 l in
      match op with
      | 1 => pmap PRead (request_from_bytes remaining)
      | 2 => pmap PWrite (request_from_bytes remaining)
      | 3 => data_from_bytes remaining
      | 4 => ack_from_bytes remaining
      | 5 => error_from_bytes remaining
      | 6 => pmap POack (oack_from_bytes remaining)
      | _ => Err EInvalid
      end
  | Err e => Err e
  | Panic => Panic
  end.

(** Payload encoders: src/packet.rs 387-401, 420-426, 447-449, 532-539, 308-323. *)
Definition body_to_bytes (p : packet) : bytes :=
  match p with
  | PRead r | PWrite r => request_to_bytes r
  | PData b d => be16 b ++ d
  | PAck b => be16 b
  | PError c msg => be16 (ecode_num c) ++ msg ++ [0]
  | POack m => oack_to_bytes m
  end.

(** src/packet.rs 99-132 Packet::to_bytes. *)
Definition to_bytes (p : packet) : bytes := be16 (opcode p) ++ body_to_bytes p.

(** src/buffer.rs 27-35 write_bytes: copies [data] at [index], [None] when the range
    [index..index+len] is outside of the buffer. *)
Definition write_bytes (buf data : bytes) (index : N) : option (bytes * N) :=
  let e := index + blen data in
  if e <=? blen buf then Some (takeN index buf ++ data ++ dropN e buf, e)
  else None.

(** Chained writes [size = buffer.write_bytes(x, size)?].  In src/packet.rs 325-336, 373-386, 428-456, 539-550. *)
Fixpoint write_all (buf : bytes) (chunks : list bytes) (size : N) : option (bytes * N) :=
  match chunks with
  | [] => Some (buf, size)
  | c :: cs =>
      match write_bytes buf c size with
      | Some (buf', size') => write_all buf' cs size'
      | None => None
      end
  end.

(** Writing through [buffer.get_mut(size..)?] and [.map(|s| size + s)].  In src/packet.rs 70-97. *)
Definition write_sub (buf : bytes) (size : N) (f : bytes -> option (bytes * N))
  : option (bytes * N) :=
  if size <=? blen buf then
    match f (dropN size buf) with
    | Some (sub, s) => Some (takeN size buf ++ sub, size + s)
    | None => None
    end
  else None.

(** src/packet.rs 325-334 OptionalAck::to_buffer. *)
Definition oack_to_buffer (m : exts) (buf : bytes) : option (bytes * N) :=
  write_all buf (flat_map (fun '(e, v) => [ext_name e; [0]; v; [0]]) (ext_list m)) 0.

(** src/packet.rs 373-385 RequestPacket::to_buffer. *)
Definition request_to_buffer (r : request) (buf : bytes) : option (bytes * N) :=
  match write_all buf [rq_name r; [0]; mode_octet; [0]] 0 with
  | Some (buf', size) => write_sub buf' size (oack_to_buffer (rq_exts r))
  | None => None
  end.

(** src/packet.rs 373-385, 428-432, 451-453, 541-546: payload [to_buffer]s. *)
Definition body_to_buffer (p : packet) (buf : bytes) : option (bytes * N) :=
  match p with
  | PRead r | PWrite r => request_to_buffer r buf
  | PData b d => write_all buf [be16 b; d] 0
  | PAck b => write_bytes buf (be16 b) 0
  | PError c msg => write_all buf [be16 (ecode_num c); msg; [0]] 0
  | POack m => oack_to_buffer m buf
  end.

(** src/packet.rs 70-97 Packet::to_buffer.  Simplification: on failure the partially
    overwritten buffer is not returned (callers never look at it). *)
Definition to_buffer (p : packet) (buf : bytes) : option (bytes * N) :=
  match write_bytes buf (be16 (opcode p)) 0 with
  | Some (buf', size) => write_sub buf' size (body_to_buffer p)
  | None => None
  end.

(** src/packet.rs 547-550 prepend_data_header. *)
Definition prepend_data_header (block : N) (buf : bytes) : option (bytes * N) :=
  write_all buf [be16 3; be16 block] 0.

(** src/buffer.rs 37-40 slice_to_array::<N>(pos). *)
Definition slice_to_array (n pos : N) (l : bytes) : option bytes :=
  if pos + n <=? blen l then Some (takeN n (dropN pos l)) else None.
(** src/buffer.rs 50-57 rslice_to_array::<N>(pos from the end). *)
Definition rslice_to_array (n pos : N) (l : bytes) : option bytes :=
  if n + pos <=? blen l then Some (takeN n (dropN (blen l - n - pos) l)) else None.
(** src/buffer.rs 71-74 slice_at_end: all but the last [e] bytes. *)
Definition slice_at_end (e : N) (l : bytes) : option bytes :=
  if e <=? blen l then Some (takeN (blen l - e) l) else None.
