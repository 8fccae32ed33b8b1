(** Text form of keys: base64 as used by src/encryption.rs (ENGINE, line 57: the
    GeneralPurpose engine STANDARD of the base64 crate 0.21.7: standard alphabet, padding
    required and canonical, trailing bits must be zero). *)
From Verif Require Import Base ConfigModel.

(** Alphabet: A-Z a-z 0-9 + /. *)
Definition b64_char (n : N) : N :=
  if n <? 26 then 65 + n
  else if n <? 52 then 97 + (n - 26)
  else if n <? 62 then 48 + (n - 52)
  else if n =? 62 then 43 else 47.
(** The STANDARD alphabet (src/encryption.rs 57), read back. *)
Definition b64_val (c : N) : option N :=
  if inr 65 90 c then Some (c - 65)
  else if inr 97 122 c then Some (c - 97 + 26)
  else if inr 48 57 c then Some (c - 48 + 52)
  else if c =? 43 then Some 62
  else if c =? 47 then Some 63
  else None.
(** src/encryption.rs 57. *)
Definition PAD : N := 61.

(** Engine::encode_slice / encode.  Called in src/encryption.rs 313-359. *)
Fixpoint b64_encode (l : bytes) : bytes :=
  match l with
  | [] => []
  | [a] => [b64_char (a / 4); b64_char (a mod 4 * 16); PAD; PAD]
  | [a; b] => [b64_char (a / 4); b64_char (a mod 4 * 16 + b / 16); b64_char (b mod 16 * 4); PAD]
  | a :: b :: c :: l' =>
      [b64_char (a / 4); b64_char (a mod 4 * 16 + b / 16);
       b64_char (b mod 16 * 4 + c / 64); b64_char (c mod 64)] ++ b64_encode l'
  end.

(** Decoding of the last four characters (padding allowed).  Called in src/encryption.rs 445-460. *)
Definition b64_last (w x y z : N) : option bytes :=
  match b64_val w, b64_val x with
  | Some p, Some q =>
      if z =? PAD then
        if y =? PAD then
          if q mod 16 =? 0 then Some [p * 4 + q / 16] else None
        else match b64_val y with
             | Some r => if r mod 4 =? 0
                         then Some [p * 4 + q / 16; q mod 16 * 16 + r / 4] else None
             | None => None
             end
      else match b64_val y, b64_val z with
           | Some r, Some s => Some [p * 4 + q / 16; q mod 16 * 16 + r / 4; r mod 4 * 64 + s]
           | _, _ => None
           end
  | _, _ => None
  end.

(** Engine::decode.  Called in src/encryption.rs 445-460. *)
Fixpoint b64_decode (l : bytes) : option bytes :=
  match l with
  | [] => Some []
  | [w; x; y; z] => b64_last w x y z
  | w :: x :: y :: z :: l' =>
      match b64_val w, b64_val x, b64_val y, b64_val z with
      | Some p, Some q, Some r, Some s =>
          match b64_decode l' with
          | Some t => Some (p * 4 + q / 16 :: q mod 16 * 16 + r / 4 :: r mod 4 * 64 + s :: t)
          | None => None
          end
      | _, _, _, _ => None
      end
  | _ => None
  end.

(** src/config.rs 56. *)
Definition MAX_EXTENSION_VALUE_SIZE : N := 88.
(** Engine::decode_slice into a zeroed array of 88 bytes; it first compares the estimate
    3 * ceil(len / 4) with the array size. *)
Definition decode_slice (l : bytes) : option bytes :=
  if (blen l + 3) / 4 * 3 <=? MAX_EXTENSION_VALUE_SIZE then
    match b64_decode l with
    | Some d => Some (d ++ repeat 0 (N.to_nat (MAX_EXTENSION_VALUE_SIZE - blen d)))
    | None => None
    end
  else None.

(** src/encryption.rs 445-460 decode::<CAP>. *)
Definition decode_fixed (cap : N) (l : bytes) : option bytes :=
  match decode_slice l with
  | Some r => if nth (N.to_nat cap) r 0 =? 0 then Some (takeN cap r) else None
  | None => None
  end.

(** src/encryption.rs 45-50 key sizes, ed25519 SIGNATURE_LENGTH. *)
Definition KEY_SIZE : N := 32.
(** src/encryption.rs 55 (constant of ed25519-dalek). *)
Definition SIGNATURE_LENGTH : N := 64.

(** src/encryption.rs 373-375 decode_public_key (also 361-371 private keys, 24 for nonces). *)
Definition decode_public_key (l : bytes) : option bytes := decode_fixed KEY_SIZE l.
(** src/encryption.rs 377-387 decode_verifying_key; [ok] is VerifyingKey::from_bytes. *)
Definition decode_verifying_key (ok : bytes -> bool) (l : bytes) : option bytes :=
  match decode_slice l with
  | Some r => let k := takeN KEY_SIZE r in if ok k then Some k else None
  | None => None
  end.
(** src/encryption.rs 389-398 decode_signature. *)
Definition decode_signature (l : bytes) : option bytes :=
  match decode_slice l with
  | Some r => Some (takeN SIGNATURE_LENGTH r)
  | None => None
  end.

(** src/encryption.rs 313-359 encode_*: the output arrays have exactly the encoded length
    (44, 32 and 88 bytes), so encoding never fails. *)
Definition encode_key (k : bytes) : bytes := b64_encode k.
