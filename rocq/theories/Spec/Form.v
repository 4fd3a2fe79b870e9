(** What texts of keys and addresses look like (BIP 32, SLIP 132, the WIF and address formats). *)
From Verif Require Import Base.Bytes Model.Sign Model.Networks.
Open Scope Z_scope.

(** Test networks share their prefixes. *)
Definition is_test (n : network) (test : bool) : Prop := (n = Mainnet /\ test = false) \/ (In n [Testnet; Regtest; Signet] /\ test = true).
(** The first letter of an extended key, by the kind of address it is for. *)
Definition key_letter (test : bool) (t : script_type) : list Z :=
  match t with
  | P2SH_P2WPKH => if test then chars "u" else chars "y"
  | P2WPKH => if test then chars "v" else chars "z"
  | P2SH_P2WSH => if test then chars "U" else chars "Y"
  | P2WSH => if test then chars "V" else chars "Z"
  | _ => if test then chars "t" else chars "x"
  end.
(** The first character and the length of a WIF text. *)
Definition wif_form (test compressed : bool) (text : list Z) : Prop :=
  if compressed then len text = 52 /\ In (hd 0 text) (if test then chars "c" else chars "KL")
  else len text = 51 /\ In (hd 0 text) (if test then chars "9" else chars "5").
(** P2PKH and P2SH addresses. *)
Definition pkh_form (test : bool) (text : list Z) : Prop :=
  if test then len text = 34 /\ In (hd 0 text) (chars "mn") else 25 <= len text <= 34 /\ hd 0 text = 49.
Definition sh_form (test : bool) (text : list Z) : Prop :=
  if test then len text = 35 /\ hd 0 text = 50 else len text = 34 /\ hd 0 text = 51.
(** Bech32 addresses of witness version 0: the prefix, "1q", 40 or 60 characters besides the prefix. *)
Definition segwit_form (hrp program text : list Z) : Prop :=
  (exists rest, text = hrp ++ chars "1q" ++ rest) /\ len text = len hrp + (if len program =? 20 then 40 else 60).
