(** Words used to state C85. *)
From Verif Require Import Base.Bytes Model.Networks Model.Sign Spec.Codecs Spec.Address Spec.HD.
Open Scope Z_scope.

(** The script that a key of a single-key type is paid through: BIP 44, 49 and 84. *)
Definition paid_script (hash160 : list Z -> list Z) (t : script_type) (key : list Z) : option (list Z) :=
  match t with
  | P2PKH => Some (p2pkh_script (hash160 key))
  | P2SH_P2WPKH => Some (p2sh_script (hash160 (witness_script 0 (hash160 key))))
  | P2WPKH => Some (witness_script 0 (hash160 key))
  | _ => None
  end.
(** The types by their purpose, the first number of a path. *)
Definition purpose (t : script_type) : option Z :=
  match t with
  | P2PKH => Some 44
  | P2SH_P2WPKH => Some 49
  | P2WPKH => Some 84
  | _ => None
  end.
