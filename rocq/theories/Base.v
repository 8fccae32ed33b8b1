(** Shared vocabulary of the model: bytes, slices, big-endian numbers,
    UTF-8 validity, decimal numbers.  Models the parts of Rust's core library
    the repository relies on. *)
From Coq Require Export String Ascii.
From Coq Require Export List NArith ZArith Lia Bool.
From Coq Require Export ZifyBool ZifyNat ZifyN.
Export ListNotations.
Open Scope N_scope.
Open Scope list_scope.

(** A byte (u8) is an [N]; byte strings are lists of them. *)
Definition byte := N.
Definition bytes := list N.

(** Every element really is a u8. *)
Definition wf_bytes (l : bytes) : Prop := Forall (fun b => b < 256) l.

(** Result of a fallible Rust function; [Panic] is an explicit outcome. *)
Inductive res (E A : Type) : Type :=
| Ok (a : A)
| Err (e : E)
| Panic.
Arguments Ok {E A} _.
Arguments Err {E A} _.
Arguments Panic {E A}.

(** String literals as byte strings. *)
Fixpoint s2b (s : string) : bytes :=
  match s with
  | EmptyString => []
  | String c s' => N_of_ascii c :: s2b s'
  end.
Definition blen (l : bytes) : N := N.of_nat (length l).

(** Slices [l[..n]] and [l[n..]] with an [N] bound. *)
Definition takeN (n : N) (l : bytes) : bytes := firstn (N.to_nat n) l.
Definition dropN (n : N) (l : bytes) : bytes := skipn (N.to_nat n) l.

(** Byte string equality ([==] on slices / str). *)
Fixpoint beq (a b : bytes) : bool :=
  match a, b with
  | [], [] => true
  | x :: a', y :: b' => (x =? y) && beq a' b'
  | _, _ => false
  end.

(** u16::to_be_bytes / u16::from_be_bytes. *)
Definition be16 (n : N) : bytes := [n / 256; n mod 256].
Definition un16 (a b : N) : N := 256 * a + b.

(** [bytes.iter().position(|&c| c == 0)] followed by slicing before and after
    the NUL: used at packet.rs 283-296, 347-364, 527-530. *)
Fixpoint split_nul (l : bytes) : option (bytes * bytes) :=
  match l with
  | [] => None
  | b :: l' =>
      if b =? 0 then Some ([], l')
      else match split_nul l' with
           | Some (p, r) => Some (b :: p, r)
           | None => None
           end
  end.

(** core::str::from_utf8 acceptance (core::str::validations::run_utf8_validation):
    the well-formed byte sequences of Unicode table 3-7. *)
Definition inr (lo hi b : N) : bool := (lo <=? b) && (b <=? hi).
Definition cont (b : N) : bool := inr 128 191 b.
Fixpoint utf8 (l : bytes) : bool :=
  match l with
  | [] => true
  | a :: l1 =>
      if a <=? 127 then utf8 l1
      else if inr 194 223 a then
        match l1 with b :: l2 => cont b && utf8 l2 | _ => false end
      else if inr 224 239 a then
        match l1 with
        | b :: c :: l3 =>
            (if a =? 224 then inr 160 191 b
             else if a =? 237 then inr 128 159 b
             else cont b)
            && cont c && utf8 l3
        | _ => false
        end
      else if inr 240 244 a then
        match l1 with
        | b :: c :: d :: l4 =>
            (if a =? 240 then inr 144 191 b
             else if a =? 244 then inr 128 143 b
             else cont b)
            && cont c && cont d && utf8 l4
        | _ => false
        end
      else false
  end.

(** [str::parse::<uN>()] for unsigned integers (core::num::from_str_radix,
    radix 10): an optional leading '+', at least one digit, only digits, error
    when the value exceeds [max]. *)
Fixpoint parse_digits (max acc : N) (l : bytes) : option N :=
  match l with
  | [] => Some acc
  | d :: l' =>
      if inr 48 57 d then
        let acc' := 10 * acc + (d - 48) in
        if acc' <=? max then parse_digits max acc' l' else None
      else None
  end.
Definition parse_num (max : N) (l : bytes) : option N :=
  match l with
  | [] => None
  | [43] => None
  | 43 :: l' => parse_digits max 0 l'
  | _ => parse_digits max 0 l
  end.
Definition U8_MAX : N := 255.
Definition U16_MAX : N := 65535.
Definition U64_MAX : N := 18446744073709551615.

(** [Display] of unsigned integers: decimal, no leading zeros. *)
Fixpoint show_fuel (fuel : nat) (n : N) (acc : bytes) : bytes :=
  match fuel with
  | O => acc
  | S f =>
      let acc' := (48 + n mod 10) :: acc in
      if n / 10 =? 0 then acc' else show_fuel f (n / 10) acc'
  end.
Definition show_num (n : N) : bytes := show_fuel (S (N.to_nat (N.size n))) n [].
