(** Specifications for hierarchical deterministic keys (BIP32). *)
From Verif Require Import Base.Bytes Spec.Codecs.
Open Scope Z_scope.

(** * Paths *)
(** A component: decimal digits and an optional hardening mark. *)
Definition component := (list Z * option Z)%type.
Definition mark_ok (m : option Z) : Prop := m = None \/ m = Some 39 (* ' *) \/ m = Some 104 (* h *).
Definition component_ok (c : component) : Prop := Forall (fun d => 0 <= d <= 9) (fst c) /\ mark_ok (snd c).
Definition component_text (c : component) : list Z :=
  map (fun d => 48 + d) (fst c) ++ match snd c with Some m => [m] | None => [] end.
(** Texts separated by '/'. *)
Fixpoint join (l : list (list Z)) : list Z :=
  match l with
  | [] => []
  | [x] => x
  | x :: t => x ++ 47 :: join t
  end.
Definition path_body (cs : list component) : list Z := join (map component_text cs).
(** The number written, and the child number it stands for. *)
Definition component_value (c : component) : Z := be_val 10 (fst c).
Definition component_hardened (c : component) : bool := match snd c with Some _ => true | None => false end.
Definition child_number (c : component) : Z := component_value c + if component_hardened c then 2^31 else 0.
(** What the number wraps to in 32 bits. *)
Definition child_mod (c : component) : Z := component_value c mod 2^32 + if component_hardened c then 2^31 else 0.
(** A component as it is meant to be: some digits, a number below 2^31. *)
Definition component_good (c : component) : Prop :=
  component_ok c /\ fst c <> [] /\ component_value c < 2^31.
(** What may stand before and after the body. *)
Definition path_prefix (p : list Z) : Prop := p = [] \/ p = chars "m/".
Definition path_suffix (p : list Z) : Prop := p = [] \/ p = chars "/".
(** C strings contain no NUL. *)
Definition c_string (s : list Z) : Prop := Forall (fun c => c <> 0) s.

(** * Serialized keys *)
(** BIP32: version, depth, parent fingerprint, child number, chain code, key: 78 bytes. *)
Definition bip32_bytes (version depth : Z) (fp : list Z) (child : Z) (chain key : list Z) : list Z :=
  be_bytes 4 version ++ [depth] ++ fp ++ be_bytes 4 child ++ chain ++ key.
(** SLIP132: version numbers of extended private and public keys, for the main network
    and the test networks, by the kind of address the key is for. *)
From Verif Require Import Model.Sign Model.HD Model.Networks.
Definition slip132_prv (test : bool) (t : script_type) : option Z :=
  match t with
  | UNKNOWN_TYPE => Some (if test then 0x04358394 else 0x0488ade4)
  | P2SH_P2WPKH => Some (if test then 0x044a4e28 else 0x049d7878)
  | P2WPKH => Some (if test then 0x045f18bc else 0x04b2430c)
  | P2SH_P2WSH => Some (if test then 0x024285b5 else 0x0295b005)
  | P2WSH => Some (if test then 0x02575048 else 0x02aa7a99)
  | _ => None
  end.
Definition slip132_pub (test : bool) (t : script_type) : option Z :=
  match t with
  | UNKNOWN_TYPE => Some (if test then 0x043587cf else 0x0488b21e)
  | P2SH_P2WPKH => Some (if test then 0x044a5262 else 0x049d7cb2)
  | P2WPKH => Some (if test then 0x045f1cf6 else 0x04b24746)
  | P2SH_P2WSH => Some (if test then 0x024289ef else 0x0295b43f)
  | P2WSH => Some (if test then 0x02575483 else 0x02aa7ed3)
  | _ => None
  end.
Definition net_of (test : bool) : network := if test then Testnet else Mainnet.
(** Field sizes of a key. *)
Definition hk_sized (k : hdpriv) : Prop :=
  length (hk_num k) = 32%nat /\ length (hk_chain k) = 32%nat /\ length (hk_fp k) = 4%nat /\ length (hk_prefix k) = 4%nat.
Definition hk_valued (k : hdpriv) : Prop :=
  bytes_ok (hk_num k) /\ bytes_ok (hk_chain k) /\ bytes_ok (hk_fp k) /\ byte_ok (hk_depth k) /\ 0 <= hk_child k < 2^32.
Definition hp_sized (k : hdpub) : Prop :=
  length (hp_point k) = 64%nat /\ length (hp_chain k) = 32%nat /\ length (hp_fp k) = 4%nat /\ length (hp_prefix k) = 4%nat.
Definition hp_valued (k : hdpub) : Prop :=
  bytes_ok (hp_point k) /\ bytes_ok (hp_chain k) /\ bytes_ok (hp_fp k) /\ byte_ok (hp_depth k) /\ 0 <= hp_child k < 2^32.
(** The text of an extended key: Base58Check of its 78 bytes. *)
Definition base58check_text (dsha : list Z -> list Z) (payload text : list Z) : Prop :=
  base_text 58 base58_alphabet (payload ++ firstn 4 (dsha payload)) text.

(** * BIP32 child keys *)
(** CKDpriv: [k] is the parent's secret, [c] its chain code, [K] its public key in compressed
    form, [i] the child number. [None]: BIP32 calls the key invalid. *)
From Verif Require Import Spec.Keys.
Definition ckd_priv (hmac : list Z -> list Z -> list Z) (k c K : list Z) (i : Z) : option (list Z * list Z) :=
  let I := hmac c ((if 2^31 <=? i then 0 :: k else K) ++ be_bytes 4 i) in
  let IL := be_val 256 (firstn 32 I) in
  let child := (IL + be_val 256 k) mod group_order in
  if (group_order <=? IL) || (child =? 0) then None else Some (be_bytes 32 child, skipn 32 I).
(** Master key: [None] when the left half is 0 or not below the order. *)
Definition bip32_master (hmac : list Z -> list Z -> list Z) (seed : list Z) : option (list Z * list Z) :=
  let I := hmac (chars "Bitcoin seed") seed in
  let IL := be_val 256 (firstn 32 I) in
  if (group_order <=? IL) || (IL =? 0) then None else Some (firstn 32 I, skipn 32 I).
(** Compressed encoding of a point given by the 64 bytes of its coordinates. *)
Definition compressed (pt : list Z) : list Z := (if Z.odd (nth 63 pt 0) then 3 else 2) :: firstn 32 pt.
