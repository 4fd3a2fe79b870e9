(** Bech32 and segregated witness addresses, after BIP 173. *)
From Verif Require Import Base.Bytes.
Open Scope Z_scope.

(** BIP 173, "Bech32": the checksum, as the reference code has it. *)
Definition GEN : list Z := [996825010; 642813549; 513874426; 1027748829; 705979059].
Definition polymod_value (chk v : Z) : Z :=
  let b := Z.shiftr chk 25 in
  fold_left (fun c p => let '(i, g) := p in if Z.testbit b i then Z.lxor c g else c)
    (combine [0; 1; 2; 3; 4] GEN) (Z.lxor (Z.shiftl (Z.land chk 33554431) 5) v).
Definition polymod (values : list Z) : Z := fold_left polymod_value values 1.
Definition hrp_expand (hrp : list Z) : list Z :=
  map (fun c => Z.shiftr c 5) hrp ++ [0] ++ map (fun c => Z.land c 31) hrp.
(** [vals] are the values of the data part, checksum included. *)
Definition checksum_ok (hrp vals : list Z) : Prop := polymod (hrp_expand hrp ++ vals) = 1.

Definition alphabet : list Z := chars "qpzry9x8gf2tvdw0s3jn54khce6mua7l".
Definition symbol (v : Z) : Z := nth (Z.to_nat v) alphabet 0.
Definition bech32_text (hrp vals : list Z) : list Z := hrp ++ chars "1" ++ map symbol vals.

Definition value_ok (v : Z) : Prop := 0 <= v < 32.
Definition is_upper (c : Z) : bool := (65 <=? c) && (c <=? 90).
Definition is_lower (c : Z) : bool := (97 <=? c) && (c <=? 122).
(** Prefixes: printable ASCII without upper-case letters. *)
Definition hrp_char (c : Z) : Prop := 33 <= c <= 126 /\ is_upper c = false.
(** Prefixes a decoded address can have. *)
Definition hrp_ok (hrp : list Z) : Prop := Forall hrp_char hrp /\ 1 <= len hrp <= 83.
Definition to_lower (s : list Z) : list Z := map (fun c => if is_upper c then c + 32 else c) s.
Definition mixed_case (s : list Z) : bool := existsb is_upper s && existsb is_lower s.

(** The program's bits in groups of five, filled up with zero bits. *)
Definition in_groups (prog gs : list Z) : Prop :=
  Forall value_ok gs /\ len gs = (8 * len prog + 4) / 5 /\
  be_val 32 gs = be_val 256 prog * 2 ^ (5 * len gs - 8 * len prog).

Definition program_ok (ver : Z) (prog : list Z) : Prop :=
  bytes_ok prog /\ 0 <= ver <= 16 /\ 2 <= len prog <= 40 /\ (ver = 0 -> len prog = 20 \/ len prog = 32).

(** [text] is the address of a witness program. *)
Definition segwit_text (hrp : list Z) (ver : Z) (prog text : list Z) : Prop :=
  exists gs check, in_groups prog gs /\ Forall value_ok check /\ len check = 6 /\
    checksum_ok hrp (ver :: gs ++ check) /\ text = bech32_text hrp (ver :: gs ++ check).

(** Number of positions where two strings differ. *)
Fixpoint differences (a b : list Z) : Z :=
  match a, b with
  | x :: a', y :: b' => (if x =? y then 0 else 1) + differences a' b'
  | _, _ => 0
  end.
