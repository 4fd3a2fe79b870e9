(** Words used to state C93. *)
From Verif Require Import Base.Bytes Model.Sign Spec.Codecs Spec.Bech32 Spec.Address.
Open Scope Z_scope.

(** The output scripts with a name: BIP 16 and 141. *)
Definition template (t : script_type) (bs : list Z) : Prop :=
  match t with
  | P2PKH => exists h, len h = 20 /\ bs = p2pkh_script h
  | P2SH => exists h, len h = 20 /\ bs = p2sh_script h
  | P2WPKH => exists h, len h = 20 /\ bs = witness_script 0 h
  | P2WSH => exists h, len h = 32 /\ bs = witness_script 0 h
  | _ => False
  end.
(** What nodes accept as one element of the stack. A redeem script (BIP 16) is one: an output to a longer one cannot be spent. *)
Definition max_element : Z := 520.
