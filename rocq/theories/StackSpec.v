(** What a client of the server without alloc has, seen through its handle; the limits. *)
From Verif Require Import Base PacketModel MapperModel ReaderModel ConfigModel CryptoModel ExtModel ConnModel
  HandshakeModel ConnSpec ServerModel StackModel.

(** The reader (with its file) a handle stands for. *)
Definition reader_at (P : pools) (h : handle) : option (bytes * reader) :=
  match h with
  | HSingle i => match im_get (p_single P) i with Some (f, s) => Some (f, RS s) | None => None end
  | HMulti i => match im_get (p_multi P) i with Some (f, s) => Some (f, RM s) | None => None end
  | HSeek i => match im_get (p_seek P) i with Some (f, s) => Some (f, RK s) | None => None end
  end.
(** The client with its reader as if it owned it. *)
Definition view (P : pools) (e : pentry) : option entry :=
  match pe_work e with
  | XRead h => match reader_at P h with
               | Some (f, r) => Some (mkE (pe_conn e) (pe_key e) (WRead f r))
               | None => None
               end
  | XWrite path w => Some (mkE (pe_conn e) (pe_key e) (WWrite path w))
  end.
Definition client_of (s : zstate) (a : addr) : option entry :=
  match pfind (z_clients s) a with Some e => view (z_pools s) e | None => None end.

(** The kinds of readers left in a state. *)
Definition left_in (s : zstate) : avail :=
  mkAv (length (p_single (z_pools s)) <? 64)%nat (length (p_multi (z_pools s)) <? 8)%nat
       (length (p_seek (z_pools s)) <? 64)%nat.
(** The surroundings of a turn, with the kinds of readers that are left. *)
Definition with_av (i : input) (av : avail) : input :=
  mkIn (i_now i) (i_clean i) (i_buflen i) (i_send1 i) (i_send2 i) (i_rx i) (i_main i) (i_env i) (i_henv i) av (i_file i).

(** The clients that read. *)
Definition is_reader (e : pentry) : bool := match pe_work e with XRead _ => true | XWrite _ _ => false end.
Definition readers (s : zstate) : nat := length (filter (fun x => is_reader (snd x)) (z_clients s)).
