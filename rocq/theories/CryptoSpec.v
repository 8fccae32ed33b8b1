(** What is assumed of the cryptographic primitives, and a toy instance showing that the
    assumptions can be met.  Theorems take [crypto_ok c] as an explicit hypothesis. *)
From Verif Require Import Base ConfigModel Base64Model CryptoModel.

(** Algebraic laws; lengths as in x25519-dalek, ed25519-dalek and chacha20poly1305. *)
Record crypto_ok (c : crypto) : Prop := {
  ok_dh : forall a b, c_dh c a (c_pub c b) = c_dh c b (c_pub c a);
  ok_mont : forall s, c_mont c (c_vk c s) = c_pub c (c_scalar c s);
  ok_vk : forall s, c_vk_ok c (c_vk c s) = true;
  ok_sign : forall s m, c_verify c (c_vk c s) m (c_sign c s m) = true;
  ok_pub_len : forall s, blen (c_pub c s) = KEY_SIZE /\ wf_bytes (c_pub c s);
  ok_vk_len : forall s, blen (c_vk c s) = KEY_SIZE /\ wf_bytes (c_vk c s);
  ok_sig_len : forall s m, blen (c_sign c s m) = SIGNATURE_LENGTH /\ wf_bytes (c_sign c s m);
  ok_open : forall k n m, c_open c k n (fst (c_seal c k n m)) (snd (c_seal c k n m)) = Some m;
  ok_seal_len : forall k n m, blen (fst (c_seal c k n m)) = blen m /\
                              blen (snd (c_seal c k n m)) = ENCRYPTION_TAG_SIZE;
  ok_auth : forall k n ct tag m, c_open c k n ct tag = Some m -> c_seal c k n m = (ct, tag) }.

(** Toy instance. *)
Definition fit (n : nat) (l : bytes) : bytes := firstn n (map (fun b => b mod 256) l ++ repeat 0 n).
Fixpoint addb (a b : bytes) : bytes :=
  match a, b with x :: a', y :: b' => (x + y) mod 256 :: addb a' b' | _, _ => [] end.
Definition toy : crypto := {|
  c_pub := fit 32;
  c_dh := fun a pk => addb (fit 32 a) pk;
  c_vk := fit 32;
  c_vk_ok := fun k => blen k =? 32;
  c_sign := fun s m => fit 64 (fit 32 s ++ m);
  c_verify := fun vk m sg => beq sg (fit 64 (vk ++ m));
  c_scalar := fun s => s;
  c_mont := fun k => k;
  c_seal := fun k n m => (rev m, fit 16 (addb (k ++ n) (5 :: m)));
  c_open := fun k n ct tag =>
    if beq tag (fit 16 (addb (k ++ n) (5 :: rev ct))) then Some (rev ct) else None |}.
