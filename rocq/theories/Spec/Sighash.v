(** The byte strings the Bitcoin protocol signs: legacy signature hashes and BIP 143. *)
From Verif Require Import Base.Bytes Spec.Codecs Spec.Wire.
Open Scope Z_scope.

(** The low five bits of the type choose the outputs, bit 7 is ANYONECANPAY. *)
Definition base_type (ty : Z) : Z := Z.land ty 31.
Definition anyonecanpay (ty : Z) : bool := negb (Z.land ty 128 =? 0).
Definition is_none (ty : Z) : bool := base_type ty =? 2.
Definition is_single (ty : Z) : bool := base_type ty =? 3.
(** The types that sign all inputs and all outputs, SIGHASH_ALL among them. *)
Definition signs_all (ty : Z) : Prop := anyonecanpay ty = false /\ is_none ty = false /\ is_single ty = false.

Definition with_sig (i : s_txin) (bs : list Z) (seq : Z) : s_txin :=
  {| si_prev := si_prev i; si_vout := si_vout i; si_sig := bs; si_seq := seq; si_wit := [] |}.
Definition blank_out : s_txout := {| so_value := 2^64 - 1; so_script := [] |}.

(** The inputs as they are signed. *)
Definition signed_ins (ins : list s_txin) (idx : nat) (code : list Z) (ty : Z) : list s_txin :=
  let all := map (fun p => let '(k, i) := p in
                   if Nat.eqb k idx then with_sig i code (si_seq i)
                   else with_sig i [] (if is_none ty || is_single ty then 0 else si_seq i))
                 (combine (seq 0 (length ins)) ins) in
  if anyonecanpay ty then firstn 1 (skipn idx all) else all.
Definition signed_outs (outs : list s_txout) (idx : nat) (ty : Z) : list s_txout :=
  if is_none ty then []
  else if is_single ty then repeat blank_out idx ++ firstn 1 (skipn idx outs)
  else outs.

(** What is hashed for input [idx] with script code [code]. (SIGHASH_SINGLE
    without a matching output, where the protocol uses the number 1 instead of a
    hash, is not described.) *)
Definition legacy_body (v : s_tx) (idx : nat) (code : list Z) (ty : Z) : list Z :=
  wire_legacy {| s_version := s_version v; s_ins := signed_ins (s_ins v) idx code ty;
                 s_outs := signed_outs (s_outs v) idx ty; s_lock := s_lock v |}.
Definition legacy_preimage (v : s_tx) (idx : nat) (code : list Z) (ty : Z) : list Z :=
  legacy_body v idx code ty ++ le_bytes 4 ty.

(** BIP 143, "Specification"; [dsha] is the double SHA-256. *)
Definition outpoint (i : s_txin) : list Z := si_prev i ++ le_bytes 4 (si_vout i).
Definition bip143_body (dsha : list Z -> list Z) (v : s_tx) (idx : nat) (i : s_txin) (code : list Z) (amount ty : Z)
  : list Z :=
  let hashPrevouts := if anyonecanpay ty then repeat 0 32 else dsha (flat_map outpoint (s_ins v)) in
  let hashSequence := if anyonecanpay ty || is_none ty || is_single ty then repeat 0 32
                      else dsha (flat_map (fun i => le_bytes 4 (si_seq i)) (s_ins v)) in
  let hashOutputs := if is_none ty then repeat 0 32
                     else if is_single ty then
                       match nth_error (s_outs v) idx with Some o => dsha (wire_out o) | None => repeat 0 32 end
                     else dsha (flat_map wire_out (s_outs v)) in
  le_bytes 4 (s_version v) ++ hashPrevouts ++ hashSequence ++ outpoint i ++ wire_bytes code ++ le_bytes 8 amount
  ++ le_bytes 4 (si_seq i) ++ hashOutputs ++ le_bytes 4 (s_lock v).
Definition bip143_preimage (dsha : list Z -> list Z) (v : s_tx) (idx : nat) (i : s_txin) (code : list Z) (amount ty : Z)
  : list Z := bip143_body dsha v idx i code amount ty ++ le_bytes 4 ty.

(** ** What signing is expected to put into an input *)
Definition update {A} (l : list A) (k : nat) (x : A) : list A := firstn k l ++ [x] ++ skipn (S k) l.
(** An input with its script and witness replaced. *)
Definition signed_in (i : s_txin) (sig : list Z) (wit : list (list Z)) : s_txin :=
  {| si_prev := si_prev i; si_vout := si_vout i; si_sig := sig; si_seq := si_seq i; si_wit := wit |}.
Definition with_in (v : s_tx) (k : nat) (i : s_txin) : s_tx :=
  {| s_version := s_version v; s_ins := update (s_ins v) k i; s_outs := s_outs v; s_lock := s_lock v |}.

(** What a signature over an input commits to. *)
Definition op_key (i : s_txin) := (si_prev i, si_vout i, si_seq i).
(** Two different strings with the same hash. *)
Definition collides (h : list Z -> list Z) (a b : list Z) : Prop := a <> b /\ h a = h b.

(** The script code of a key hash; the standard script and witness of a signed input.
    [pk]: the spent script is a P2PKH one; [wp]: a P2WPKH one; [nested]: inside P2SH. *)
Definition key_code (h : list Z) : list Z := [118; 169; 20] ++ h ++ [136; 172].
Definition expected_sig (pk : bool) (sec der code : list Z) : list Z :=
  [len der + 1] ++ der ++ [1] ++ [len sec] ++ sec ++ (if pk then [] else wire_bytes code).
Definition expected_wit (wp : bool) (sec der code : list Z) : list (list Z) :=
  (der ++ [1]) :: sec :: (if wp then [] else [code]).
Definition expected_redeem (nested wp : bool) (sha256 : list Z -> list Z) (code : list Z) : list Z :=
  if nested then wire_bytes (if wp then code else [0; 32] ++ sha256 code) else [].
