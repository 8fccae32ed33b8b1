(** Independent vocabulary for option negotiation. *)
From Verif Require Import Base PacketModel ConfigModel Base64Model CryptoModel ExtModel.

(** Decimal numerals: digits with an optional plus sign. *)
Definition digit (d : N) : Prop := 48 <= d <= 57.
Definition digits_value (ds : bytes) : N := fold_left (fun a d => 10 * a + (d - 48)) ds 0.
Definition decimal (s : bytes) (n : N) : Prop :=
  exists ds, (s = ds \/ s = 43 :: ds) /\ ds <> [] /\ Forall digit ds /\ n = digits_value ds.

(** The options [ce] contain the number [n] (at most [max]) for [e]. *)
Definition asks (ce : exts) (e : ext) (max n : N) : Prop :=
  exists s, ext_get ce e = Some s /\ decimal s n /\ n <= max.

(** The request carries an authentication key from [ks] and a signature with it of the
    session key. *)
Definition authorised (c : crypto) (ks : list bytes) (ce : exts) (session : bytes) : Prop :=
  exists ts ta tg vk sg,
    ext_get ce SessionPublicKey = Some ts /\ decode_public_key ts = Some session /\
    ext_get ce AuthPublicKey = Some ta /\ decode_verifying_key (c_vk_ok c) ta = Some vk /\
    ext_get ce Signature = Some tg /\ decode_signature tg = Some sg /\
    In vk ks /\ c_verify c vk session sg = true.
