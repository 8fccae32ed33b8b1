(** The client's wait for the first answer: src/client/connection.rs 38-167 query_server and
    184-225 wait_for_initial_packet.

    The encryption of the request by the socket is in HandshakeModel.client_request; here only
    its options are recorded.  Clocks are milliseconds.  Log output is left out. *)
From Verif Require Import Base PacketModel ReaderModel ConfigModel CryptoModel ExtModel ConnModel HandshakeModel.

(** What Socket::recv_from returns (205): a datagram, from the IP address of the configured
    endpoint or not, from its port or not; nothing in the time given; an error. *)
Inductive wev := WvFrom (ip port : bool) (wire : bytes) | WvBlock | WvError.
(** One turn of the loop: does sending the request succeed, what arrives, the time then.
    No code of its own; used by src/client/connection.rs 194-224. *)
Record winput := mkWI { wi_sock : bool; wi_ev : wev; wi_now : N }.

(** Variables of the two loops: first attempt?, options of the last request, the instant the wait
    began, retry_timeout, length of the receive buffer.  src/client/connection.rs 63-67, 191-193. *)
Record wstate := mkWS { ws_initial : bool; ws_used : exts; ws_start : N; ws_retry : N; ws_cap : N }.

(** src/client/connection.rs 69-169, 193-224. *)
Inductive wout :=
| WoWaiting (st : wstate) | WoFail | WoTimeout | WoRefuse (reply : packet) | WoPanic | WoDone (q : qdone) (port : bool).

(** src/client/connection.rs 43-66, 184-192: the arguments. *)
Record wcfg := mkWC {
  wc_crypto : crypto; wc_cfg : ccfg; wc_sock : csock; wc_write : bool; wc_opts : options;
  wc_timeout : N; wc_buf : N; wc_txt : list ext -> bytes }.

(** connection.rs 184-225 (one turn) and 70-167 (what follows an answer).  Line 212-219: the time
    left and the doubled wait (the u64 millisecond clocks do not saturate).
    EncryptionBoundSocket::recv_from truncates the buffer to what was received (encryption_socket.rs
    69-70) and decrypts in place; only query_server makes it longer again (line 78).  The instant
    of a second wait (194) is taken to be the one of the answer before it. *)
Definition wait_turn (g : wcfg) (st : wstate) (i : winput) : wout :=
  if negb (wi_sock i) then WoFail
  else match wi_ev i with
  | WvFrom ip port wire =>
      match client_recv (wc_crypto g) (wc_sock g) (takeN (ws_cap st) wire) with
      | Panic => WoPanic
      | Err _ => WoFail
      | Ok p =>
          if ip then
            match query_step (wc_crypto g) (wc_cfg g) (wc_write g) (ws_initial st) (wc_opts g) (ws_used st) port (wc_txt g) p with
            | QDone q => WoDone q port
            | QFail (Some e) => WoRefuse e
            | QFail None => WoFail
            | QRetry => WoWaiting (mkWS false exts_empty (wi_now i) (op_retry (wc_opts g)) (wc_buf g))
            end
          else WoWaiting (mkWS (ws_initial st) (ws_used st) (ws_start st) (ws_retry st) (blen p))
      end
  | WvBlock =>
      let elapsed := wi_now i - ws_start st in
      if wc_timeout g <? elapsed then WoTimeout
      else WoWaiting (mkWS (ws_initial st) (ws_used st) (ws_start st)
                           (N.min (wc_timeout g - elapsed) (2 * ws_retry st)) (ws_cap st))
  | WvError => WoFail
  end.

(** The whole exchange: the options of the requests sent, one for each turn, and the outcome.
    src/client/connection.rs 98-168. *)
Fixpoint query_run (g : wcfg) (st : wstate) (l : list winput) : list exts * wout :=
  match l with
  | [] => ([], WoWaiting st)
  | i :: l' =>
      match wait_turn g st i with
      | WoWaiting st' => let '(r, o) := query_run g st' l' in (ws_used st :: r, o)
      | o => ([ws_used st], o)
      end
  end.

(** connection.rs 60-68, 194: the start; [ex] are the options asked for. *)
Definition wait_init (g : wcfg) (ex : exts) (now : N) : wstate :=
  mkWS true ex now (op_retry (wc_opts g)) (wc_buf g).
