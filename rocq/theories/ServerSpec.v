(** What one client of a server should experience, whatever the other clients do. *)
From Verif Require Import Base PacketModel MapperModel ReaderModel ConfigModel CryptoModel ExtModel ConnModel
  HandshakeModel ConnSpec ServerModel.

(** What a server sends to [a]. *)
Definition sent_to (a : addr) (o : outs) : list out :=
  map snd (filter (fun x => fst x =? a) o).

(** One event in the life of the client at [a], by itself: nothing; its connection ends; a
    block is sent to it; a datagram of it is handled; it connects; it is refused.  Only its own
    state and what the surroundings do for it in this turn ([i]) are mentioned. *)
Inductive own (c : crypto) (g : srvcfg) (i : input) (a : addr) : option entry -> option entry -> list out -> Prop :=
| own_nothing x : own c g i a x x []
| own_end e plain :
    timeout_client (en_conn e) (g_timeout g) (e_now (i_clean i a)) (e_sock (i_clean i a)) (e_txt (i_clean i a)) = (true, plain) ->
    own c g i a (Some e) None (map OPlain plain)
| own_send e v e' plain ok :
    active e = true -> (v = i_send1 i a \/ v = i_send2 i a) ->
    send_client (i_buflen i) e v = (e', plain, ok) ->
    own c g i a (Some e) (Some e') (map OPlain plain)
| own_receive e d e' plain :
    i_rx i a = Some d ->
    handle_client c (g_max_size g) e (recv_cut g d) (i_env i) = Some (e', plain) ->
    own c g i a (Some e) (Some e') (map OPlain plain)
| own_connect d x reply :
    i_main i = MData a d ->
    server_new c (g_cfg g) (i_henv i) (i_av i) (recv_cut g d) = SAccepted x reply ->
    own c g i a None (Some (new_entry x (e_now (i_env i)) (i_file i))) (match reply with Some w => [OWire w] | None => [] end)
| own_refused d reply :
    i_main i = MData a d ->
    server_new c (g_cfg g) (i_henv i) (i_av i) (recv_cut g d) = SRefused reply ->
    own c g i a None None (match reply with Some w => [OWire w] | None => [] end).

(** Threads: the client at [a] in the multi threaded server; a client without live thread
    counts as absent. *)
Definition live_entry (h : handles) (a : addr) : option entry :=
  match find_handle h a with Some (mkT true e) => Some e | _ => None end.
