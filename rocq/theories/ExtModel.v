(** Option negotiation: src/server/extensions.rs, src/client/extensions.rs and the level
    names of src/encryption.rs 166-207.  Durations are numbers of milliseconds. *)
From Verif Require Import Base PacketModel ConfigModel Base64Model CryptoModel.

(** src/encryption.rs 166-180 FromStr for EncryptionLevel. *)
Definition level_parse (s : bytes) : option enc_level :=
  if beq s (s2b "data") then Some LData
  else if beq s (s2b "protocol") then Some LProtocol
  else if beq s (s2b "full") then Some LFull
  else if beq s (s2b "optional-data") then Some LOptData
  else if beq s (s2b "optional-protocol") then Some LOptProtocol
  else if beq s (s2b "none") then Some LNone
  else None.
(** src/encryption.rs 182-193 Display. *)
Definition level_show (l : enc_level) : bytes :=
  match l with
  | LData => s2b "data" | LProtocol => s2b "protocol" | LFull => s2b "full"
  | LOptData => s2b "optional-data" | LOptProtocol => s2b "optional-protocol" | LNone => s2b "none"
  end.
(** derive(PartialEq) at src/encryption.rs 156-164. *)
Definition level_eqb (a b : enc_level) : bool :=
  match a, b with
  | LData, LData | LProtocol, LProtocol | LFull, LFull | LOptData, LOptData
  | LOptProtocol, LOptProtocol | LNone, LNone => true
  | _, _ => false
  end.

(** src/config.rs 60-65 option limits. *)
Definition EXTENSION_WINDOW_SIZE_MIN : N := 1.
(** src/config.rs 62. *)
Definition EXTENSION_BLOCK_SIZE_MIN : N := DEFAULT_DATA_BLOCK_SIZE.
(** src/config.rs 64. *)
Definition EXTENSION_TIMEOUT_SIZE_MIN : N := 1.
(** src/config.rs 65. *)
Definition EXTENSION_TIMEOUT_SIZE_MAX : N := 255.

(** src/error.rs ExtensionError (as far as these functions return it).  Lines 210-219. *)
Inductive ext_err : Type :=
| EInvalidExtension (e : ext) | EServerRequired (l : enc_level) | EClientRequired (l : enc_level)
| EInvalidPublicKey | EInvalidSignature | ENotAuthorized | EEncryption.

(** Record update; src/config.rs 68-74. *)
Definition set_bs (o : options) (b : N) : options :=
  mkOpts b (op_retry o) (op_size o) (op_enc o) (op_window o).
(** Record update; src/config.rs 68-74. *)
Definition set_retry (o : options) (t : N) : options :=
  mkOpts (op_bs o) t (op_size o) (op_enc o) (op_window o).
(** Record update; src/config.rs 68-74. *)
Definition set_size (o : options) (s : option N) : options :=
  mkOpts (op_bs o) (op_retry o) s (op_enc o) (op_window o).
(** Record update; src/config.rs 68-74. *)
Definition set_enc (o : options) (l : enc_level) : options :=
  mkOpts (op_bs o) (op_retry o) (op_size o) l (op_window o).
(** Record update; src/config.rs 68-74. *)
Definition set_window (o : options) (w : N) : options :=
  mkOpts (op_bs o) (op_retry o) (op_size o) (op_enc o) w.

(** [s.parse().unwrap_or(0)]. *)
Definition parse_or0 (max : N) (s : bytes) : N :=
  match parse_num max s with Some n => n | None => 0 end.
(** [(lo..=hi).contains(&x)].  In src/server/extensions.rs 29-231 and src/client/extensions.rs 117-244. *)
Definition within_range (lo hi x : N) : bool := (lo <=? x) && (x <=? hi).

(** src/server/config.rs 9-26 ServerConfig, the fields used here.  Signing keys are given by
    their bytes, verifying keys too. *)
Record scfg := mkScfg {
  sc_max_bs : N; sc_max_window : N; sc_timeout : N; sc_max_size : N;
  sc_auth : option (list bytes); sc_key : option bytes; sc_full : bool; sc_err_auth : bool;
  sc_seek : bool }.

(** src/server/helpers/connection.rs 26-31 SessionKeys: our ephemeral secret, their key. *)
Record session_keys := mkSK { sk_secret : bytes; sk_remote : bytes }.

(** src/server/extensions.rs 37-55. *)
Definition srv_block (cfg : scfg) (ce : exts) (ou : options * exts) : options * exts :=
  let '(o, used) := ou in
  match ext_get ce BlockSize with
  | None => (o, used)
  | Some s =>
      let b := parse_or0 U16_MAX s in
      if within_range EXTENSION_BLOCK_SIZE_MIN (sc_max_bs cfg) b
      then (set_bs o b, ext_insert used BlockSize (show_num b))
      else if sc_max_bs cfg <? b
      then (set_bs o (sc_max_bs cfg), ext_insert used BlockSize (show_num (sc_max_bs cfg)))
      else (o, used)
  end.

(** src/server/extensions.rs 57-78. *)
Definition srv_window (maxw : N) (ce : exts) (ou : options * exts) : options * exts :=
  let '(o, used) := ou in
  match ext_get ce WindowSize with
  | None => (o, used)
  | Some s =>
      let w := parse_or0 U16_MAX s in
      if within_range EXTENSION_WINDOW_SIZE_MIN maxw w
      then (set_window o w, ext_insert used WindowSize (show_num w))
      else if maxw <? w
      then (set_window o maxw, ext_insert used WindowSize (show_num maxw))
      else (o, used)
  end.

(** src/server/extensions.rs 80-93; [as_secs] rounds down. *)
Definition srv_timeout (cfg : scfg) (ce : exts) (ou : options * exts) : options * exts :=
  let '(o, used) := ou in
  match ext_get ce Timeout with
  | None => (o, used)
  | Some s =>
      let t := parse_or0 U8_MAX s in
      if within_range EXTENSION_TIMEOUT_SIZE_MIN (sc_timeout cfg / 1000) t
      then (set_retry o (t * 1000), ext_insert used Timeout (show_num t))
      else (o, used)
  end.

(** src/server/extensions.rs 95-108. *)
Definition srv_tsize (ce : exts) (ou : options * exts) : options * exts :=
  let '(o, used) := ou in
  match ext_get ce TransferSize with
  | None => (o, used)
  | Some s =>
      match parse_num U64_MAX s with
      | Some n => (set_size o (Some n), ext_insert used TransferSize (show_num n))
      | None => (o, used)
      end
  end.

(** [map(decode).transpose()?]: absent, present and decoded, or an error.
    In src/server/extensions.rs 29-231 and src/client/extensions.rs 117-244. *)
Definition opt_decode {A} (d : bytes -> option A) (s : option bytes) : res ext_err (option A) :=
  match s with
  | None => Ok None
  | Some v => match d v with Some a => Ok (Some a) | None => Err EEncryption end
  end.

(** The operator ? in src/server/extensions.rs 29-231 and src/client/extensions.rs 117-244. *)
Definition bind {A B} (r : res ext_err A) (f : A -> res ext_err B) : res ext_err B :=
  match r with Ok a => f a | Err e => Err e | Panic => Panic end.

(** src/server/extensions.rs 167-187 and src/client/extensions.rs 205-227: an authentication
    key must come with a valid signature of the session key. *)
Definition check_signature (c : crypto) (es : exts) (session : bytes) (auth : option bytes)
  : res ext_err unit :=
  match auth with
  | None => Ok tt
  | Some vk =>
      bind (opt_decode decode_signature (ext_get es Signature)) (fun sg =>
      match sg with
      | None => Err EInvalidSignature
      | Some sg =>
          if c_vk_ok c vk then
            if c_verify c vk session sg then Ok tt else Err EInvalidSignature
          else Err EInvalidSignature
      end)
  end.

(** Slice::contains on the authorised keys.
    In src/server/extensions.rs 29-231 and src/client/extensions.rs 117-244. *)
Definition in_keys (k : bytes) (l : list bytes) : bool := existsb (beq k) l.

(** src/server/extensions.rs 29-231 parse_extensions (feature encryption).  [eph] is the
    ephemeral secret drawn by create_initial_keys. *)
Definition server_parse (c : crypto) (cfg : scfg) (maxw : N) (eph : bytes) (ce : exts) (o0 : options)
  : res ext_err (exts * options * option session_keys) :=
  let '(o, used) := srv_tsize ce (srv_timeout cfg ce (srv_window maxw ce (srv_block cfg ce (o0, exts_empty)))) in
  bind (opt_decode level_parse (ext_get ce EncLevel)) (fun lvl =>
  if sc_full cfg && negb (level_eqb (op_enc o) LFull) then Err (EServerRequired LFull)
  else
  let accept (l : enc_level) :=
    let o := set_enc o l in
    let used := match lvl with
                | Some _ => ext_insert used EncLevel (level_show l)
                | None => used
                end in
    bind (opt_decode decode_public_key (ext_get ce SessionPublicKey)) (fun session =>
    match session with
    | None => Err EInvalidPublicKey
    | Some session =>
        bind (opt_decode (decode_verifying_key (c_vk_ok c)) (ext_get ce AuthPublicKey)) (fun auth =>
        bind (check_signature c ce session auth) (fun _ =>
        bind (match sc_auth cfg with
              | None => Ok tt
              | Some keys =>
                  match auth with
                  | None => Err EInvalidPublicKey
                  | Some k => if in_keys k keys then Ok tt else Err ENotAuthorized
                  end
              end) (fun _ =>
        let used := ext_insert used SessionPublicKey (encode_key (c_pub c eph)) in
        let used :=
          match sc_key cfg, auth with
          | Some sk, Some _ =>
              ext_insert (ext_insert used AuthPublicKey (encode_key (c_vk c sk)))
                Signature (encode_key (c_sign c sk (c_pub c eph)))
          | _, _ => used
          end in
        Ok (used, o, Some (mkSK eph session)))))
    end) in
  match lvl with
  | Some LFull =>
      if negb (level_eqb (op_enc o) LFull) then Err (EInvalidExtension EncLevel) else accept LFull
  | Some (LData | LOptData) => accept LData
  | Some (LProtocol | LOptProtocol) => accept LProtocol
  | Some LNone | None =>
      match sc_auth cfg with
      | None => Ok (used, o, None)
      | Some _ => Err (EServerRequired LData)
      end
  end).

(** src/encryption.rs 74-77 InitialKeys of the client: ephemeral secret, signing key. *)
Record client_keys := mkCK { ck_secret : bytes; ck_auth : option bytes }.

(** src/client/extensions.rs 29-52 validate_extensions: the names not asked for. *)
Definition unasked (new used : exts) : list ext :=
  filter (fun e => match ext_get new e, ext_get used e with Some _, None => true | _, _ => false end)
    all_exts.

(** src/client/extensions.rs 54-115 create_extensions; [expect] on missing keys is a panic. *)
Definition create_extensions (c : crypto) (o : options) (keys : option client_keys) : res unit exts :=
  let u := exts_empty in
  let u := if op_bs o =? DEFAULT_DATA_BLOCK_SIZE then u else ext_insert u BlockSize (show_num (op_bs o)) in
  let u := if negb (op_retry o =? DEFAULT_RETRY_PACKET_TIMEOUT)
              && (EXTENSION_TIMEOUT_SIZE_MIN <=? op_retry o / 1000)
           then ext_insert u Timeout (show_num (op_retry o / 1000)) else u in
  let u := match op_size o with Some n => ext_insert u TransferSize (show_num n) | None => u end in
  let u := if op_window o =? EXTENSION_WINDOW_SIZE_MIN then u
           else ext_insert u WindowSize (show_num (op_window o)) in
  if level_eqb (op_enc o) LNone then Ok u
  else match keys with
       | None => Panic
       | Some k =>
           let pk := c_pub c (ck_secret k) in
           let u := ext_insert (ext_insert u SessionPublicKey (encode_key pk))
                      EncLevel (level_show (op_enc o)) in
           match ck_auth k with
           | None => Ok u
           | Some sk => Ok (ext_insert (ext_insert u AuthPublicKey (encode_key (c_vk c sk)))
                              Signature (encode_key (c_sign c sk pk)))
           end
       end.

(** src/client/extensions.rs 121-130. *)
Definition cl_block (se : exts) (o : options) : res ext_err options :=
  match ext_get se BlockSize with
  | Some s =>
      let b := parse_or0 U16_MAX s in
      if within_range EXTENSION_BLOCK_SIZE_MIN (op_bs o) b then Ok (set_bs o b)
      else Err (EInvalidExtension BlockSize)
  | None => Ok (set_bs o DEFAULT_DATA_BLOCK_SIZE)
  end.
(** src/client/extensions.rs 132-141. *)
Definition cl_window (se : exts) (o : options) : res ext_err options :=
  match ext_get se WindowSize with
  | Some s =>
      let w := parse_or0 U16_MAX s in
      if within_range EXTENSION_WINDOW_SIZE_MIN (op_window o) w then Ok (set_window o w)
      else Err (EInvalidExtension WindowSize)
  | None => Ok (set_window o EXTENSION_WINDOW_SIZE_MIN)
  end.
(** src/client/extensions.rs 143-153. *)
Definition cl_timeout (se : exts) (o : options) : res ext_err options :=
  match ext_get se Timeout with
  | Some s =>
      let t := parse_or0 U8_MAX s in
      if within_range EXTENSION_TIMEOUT_SIZE_MIN EXTENSION_TIMEOUT_SIZE_MAX t
      then Ok (set_retry o (t * 1000))
      else Err (EInvalidExtension Timeout)
  | None => Ok (set_retry o DEFAULT_RETRY_PACKET_TIMEOUT)
  end.
(** src/client/extensions.rs 155-162. *)
Definition cl_tsize (se : exts) (o : options) : res ext_err options :=
  match ext_get se TransferSize with
  | Some s =>
      let n := parse_or0 U64_MAX s in
      match op_size o with
      | None | Some 0 => Ok (set_size o (Some n))
      | Some m => if m =? n then Ok o else Err (EInvalidExtension TransferSize)
      end
  | None => Ok o
  end.

(** src/encryption.rs 79-83 PublicKeyPair. *)
Record key_pair := mkKP { kp_auth : option bytes; kp_session : bytes }.

(** src/client/extensions.rs 164-241: the encryption part. *)
Definition cl_enc (c : crypto) (se : exts) (o : options) : res ext_err (options * option key_pair) :=
  if level_eqb (op_enc o) LNone then Ok (o, None)
  else
  bind (opt_decode level_parse (ext_get se EncLevel)) (fun lvl =>
  let answered_none := match lvl with None | Some LNone => true | _ => false end in
  match op_enc o, answered_none with
  | (LOptData | LOptProtocol), true => Ok (set_enc o LNone, None)
  | _, _ =>
      if match op_enc o with LData | LProtocol => true | _ => false end
         && negb (match lvl with Some (LData | LProtocol) => true | _ => false end)
      then Err (EClientRequired (op_enc o))
      else
        match lvl with
        | None => Err (EInvalidExtension EncLevel)
        | Some l =>
            bind (opt_decode decode_public_key (ext_get se SessionPublicKey)) (fun session =>
            match session with
            | None => Err (EInvalidExtension SessionPublicKey)
            | Some session =>
                bind (opt_decode (decode_verifying_key (c_vk_ok c)) (ext_get se AuthPublicKey)) (fun auth =>
                bind (check_signature c se session auth) (fun _ =>
                Ok (set_enc o l, Some (mkKP auth session))))
            end)
        end
  end).

(** src/client/extensions.rs 117-244 parse_extensions. *)
Definition client_parse (c : crypto) (se : exts) (o : options) : res ext_err (options * option key_pair) :=
  bind (cl_block se o) (fun o =>
  bind (cl_window se o) (fun o =>
  bind (cl_timeout se o) (fun o =>
  bind (cl_tsize se o) (fun o => cl_enc c se o)))).
