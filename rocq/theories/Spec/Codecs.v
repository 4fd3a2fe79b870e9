(** Independent definitions of the encodings: no reference to the model. *)
From Verif Require Import Base.Bytes.
Open Scope Z_scope.

(** The [n] low bytes of [x], least significant first. *)
Fixpoint le_bytes (n : nat) (x : Z) : list Z :=
  match n with
  | O => []
  | S n' => x mod 256 :: le_bytes n' (x / 256)
  end.
Definition be_bytes (n : nat) (x : Z) : list Z := rev (le_bytes n x).

(** Bitcoin's CompactSize: the byte strings that denote a number ... *)
Inductive compact_form : Z -> list Z -> Prop :=
| cf1 : forall n, 0 <= n < 253 -> compact_form n [n]
| cf3 : forall n, 0 <= n < 2^16 -> compact_form n (253 :: le_bytes 2 n)
| cf5 : forall n, 0 <= n < 2^32 -> compact_form n (254 :: le_bytes 4 n)
| cf9 : forall n, 0 <= n < 2^64 -> compact_form n (255 :: le_bytes 8 n).

(** ... and the canonical one. *)
Definition compact_size (n : Z) : list Z :=
  if n <? 253 then [n]
  else if n <? 2^16 then 253 :: le_bytes 2 n
  else if n <? 2^32 then 254 :: le_bytes 4 n
  else 255 :: le_bytes 8 n.

(** Hexadecimal, lower case. *)
Definition hex_alphabet : list Z := chars "0123456789abcdef".
Definition hex_string (bs : list Z) : list Z :=
  flat_map (fun b => [nth (Z.to_nat (b / 16)) hex_alphabet 0;
                      nth (Z.to_nat (b mod 16)) hex_alphabet 0]) bs.

(** A hex digit of either case, and its value. *)
Definition is_hex_digit (c v : Z) : Prop :=
  (48 <= c <= 57 /\ v = c - 48) \/ (65 <= c <= 70 /\ v = c - 55) \/ (97 <= c <= 102 /\ v = c - 87).
(** Hex text of either case and the bytes it stands for; a single character
    left over at the end stands for nothing. *)
Inductive hex_text : list Z -> list Z -> Prop :=
| ht_nil : hex_text [] []
| ht_odd : forall c, hex_text [c] []
| ht_pair : forall c1 c2 v1 v2 t bs, is_hex_digit c1 v1 -> is_hex_digit c2 v2 -> hex_text t bs ->
    hex_text (c1 :: c2 :: t) (16 * v1 + v2 :: bs).

(** Binary text, eight digits per byte, most significant first. *)
Definition bin_string (bs : list Z) : list Z :=
  flat_map (fun b => map (fun k => 48 + (b / 2^k) mod 2) [7; 6; 5; 4; 3; 2; 1; 0]) bs.

(** Base-N text as Bitcoin uses it: one zero digit per leading zero byte, then the
    digits of the number, without leading zero digit. *)
Definition base_text (base : Z) (alphabet : list Z) (bs text : list Z) : Prop :=
  exists (z : nat) (rest digits : list Z),
    bs = repeat 0 z ++ rest /\ hd 1 rest <> 0 /\
    Forall (fun d => 0 <= d < base) digits /\ hd 1 digits <> 0 /\
    be_val base digits = be_val 256 rest /\
    text = repeat (nth 0 alphabet 0) z ++ map (fun d => nth (Z.to_nat d) alphabet 0) digits.

Definition base58_alphabet : list Z :=
  chars "123456789ABCDEFGHJKLMNPQRSTUVWXYZabcdefghijkmnopqrstuvwxyz".
Definition base43_alphabet : list Z :=
  chars "0123456789ABCDEFGHIJKLMNOPQRSTUVWXYZ$*+-./:".

(** Base 64 (RFC 4648). *)
Definition b64_alphabet (urlsafe : bool) : list Z :=
  chars (if urlsafe then "ABCDEFGHIJKLMNOPQRSTUVWXYZabcdefghijklmnopqrstuvwxyz0123456789-_"
         else "ABCDEFGHIJKLMNOPQRSTUVWXYZabcdefghijklmnopqrstuvwxyz0123456789+/")%string.
Fixpoint base64_text (urlsafe padded : bool) (bs : list Z) : list Z :=
  let ch := fun d => nth (Z.to_nat d) (b64_alphabet urlsafe) 0 in
  let pad := fun l => if padded then l else [] in
  match bs with
  | [] => []
  | [a] => [ch (a / 4); ch (a mod 4 * 16)] ++ pad (chars "==")
  | [a; b] => [ch (a / 4); ch (a mod 4 * 16 + b / 16); ch (b mod 16 * 4)] ++ pad (chars "=")
  | a :: b :: c :: t =>
      [ch (a / 4); ch (a mod 4 * 16 + b / 16); ch (b mod 16 * 4 + c / 64); ch (c mod 64)]
        ++ base64_text urlsafe padded t
  end.
