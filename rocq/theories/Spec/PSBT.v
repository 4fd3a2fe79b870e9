(** Partially signed transactions: the format of BIP 174 and what an object holds. *)
From Verif Require Import Base.Bytes Spec.Codecs Spec.Wire Spec.Objects Spec.Signature Spec.Point Model.Stream Model.Script Model.Tx Model.Signature Model.Point Model.PSBT.
Open Scope Z_scope.

(** A map is a sequence of keys and values, closed by an empty key. *)
Definition wire_pair (p : list Z * list Z) : list Z := wire_bytes (fst p) ++ wire_bytes (snd p).
Definition wire_map (m : list (list Z * list Z)) : list Z := flat_map wire_pair m ++ [0].
(** The unsigned transaction [t], further global entries, and one map for each input and output. *)
Definition wire_psbt (t : list Z) (global : list (list Z * list Z)) (maps : list (list (list Z * list Z))) : list Z :=
  [112; 115; 98; 116; 255] ++ wire_pair ([0], t) ++ wire_map global ++ flat_map wire_map maps.
Definition pair_ok (p : list Z * list Z) : Prop :=
  fst p <> [] /\ bytes_ok (fst p) /\ len (fst p) < 2^31 /\ bytes_ok (snd p) /\ len (snd p) < 2^31.
(** Lengths [n] for which the length of [n] and of the whole [n + prefix] are written with as many bytes. *)
Definition plain_length (n : Z) : Prop := n <> 252 /\ ~ 65533 <= n <= 65535.

(** A partial signature: the number pair [r], [s] for the key at [x], [y]. *)
Record s_psig := { g_comp : bool; g_x : Z; g_y : Z; g_r : Z; g_s : Z }.
Definition psig_ok (g : s_psig) : Prop :=
  on_curve (g_x g) (g_y g) /\ 0 <= g_r g < 2^256 /\ 0 <= g_s g < 2^256.
Definition psig_holds (e : ecpoint * signature) (g : s_psig) : Prop :=
  pt_xy (fst e) = coords (g_x g) (g_y g) /\ pt_comp (fst e) = g_comp g /\ sig_holds (snd e) (g_r g) (g_s g).
(** Its entry: key type 2 with the key, DER followed by the signature hash type, as a rule SIGHASH_ALL. *)
Definition psig_typed (type : Z) (g : s_psig) (pair : list Z * list Z) : Prop :=
  exists d, der_sig (g_r g) (g_s g) d /\ pair = (2 :: sec_bytes (g_comp g) (g_x g) (g_y g), d ++ [type]).
(** With any type. *)
Definition psig_any (g : s_psig) (pair : list Z * list Z) : Prop := exists type, 0 <= type < 256 /\ psig_typed type g pair.
Definition psig_pair : s_psig -> list Z * list Z -> Prop := psig_typed 1.

(** An object that holds the transaction [v] and for each input these signatures. *)
Definition psbt_holds (p : psbt) (v : s_tx) (sigs : list (list s_psig)) : Prop :=
  tx_holds (ps_tx p) v /\
  exists ins outs, ps_ins p = Some ins /\ ps_outs p = Some outs /\ length outs = length (s_outs v) /\ length sigs = length (s_ins v) /\
    Forall2 (fun m l => Forall2 psig_holds (im_sigs m) l) ins sigs.
(** Nothing but signatures. *)
Definition only_sigs (p : psbt) : Prop :=
  (exists ins, ps_ins p = Some ins /\ Forall (fun m => im_out m = txout_new /\ im_ders m = [] /\ im_redeem m = script_new /\ im_witness m = script_new) ins) /\
  (exists outs, ps_outs p = Some outs /\ Forall (fun m => m = om_new) outs).

(** ** Transactions and entries *)

(** A transaction that a PSBT can carry. *)
Definition carried (v : s_tx) : Prop :=
  tx_ok v /\ Forall wit_ok (s_ins v) /\ 1 <= len (s_ins v) < 253 /\ len (s_outs v) < 253 /\
  len (wire_tx v) < 2^31 /\ plain_length (len (wire_tx v)).
Definition psbt_tx (v : s_tx) : Prop := carried v /\ 1 + len (s_ins v) + len (s_outs v) <= 255.
(** One map for each input and each output. *)
Definition fits_maps (v : s_tx) (global : list (list Z * list Z)) (mi mo : list (list (list Z * list Z))) : Prop :=
  len mi = len (s_ins v) /\ len mo = len (s_outs v) /\ Forall pair_ok global /\ Forall (Forall pair_ok) (mi ++ mo).
(** Objects that are new or have completed a parse. *)
Inductive reusable (dsha : list Z -> list Z) (garbage : list Z) : psbt -> Prop :=
| reuse_new : reusable dsha garbage psbt_new
| reuse_done : forall q v global mi mo rest q' n r, reusable dsha garbage q -> psbt_tx v -> fits_maps v global mi mo ->
    psbt_parse dsha garbage q (wire_psbt (wire_tx v) global (mi ++ mo) ++ rest) = Ok (q', n, r) -> ps_status q' = DONE -> reusable dsha garbage q'.

(** The entries that tell what an input spends: an output, or a whole previous transaction. *)
Definition utxo_entry (e : list Z * list Z) (o : s_txout) : Prop :=
  e = ([1], wire_out o) /\ out_ok o /\ plain_length (len (wire_out o)) /\ len (wire_out o) < 2^31.
Definition spends (dsha : list Z -> list Z) (i : s_txin) (w : s_tx) : Prop :=
  dsha (wire_legacy w) = si_prev i /\ si_vout i < len (s_outs w).
Definition prev_entry (e : list Z * list Z) (w : s_tx) : Prop := e = ([0], wire_tx w) /\ carried w.
(** The amount that an entry gives for the input [i]. *)
Definition gives_amount (dsha : list Z -> list Z) (i : s_txin) (e : list Z * list Z) (a : Z) : Prop :=
  (exists o, utxo_entry e o /\ so_value o = a) \/
  (exists w o, prev_entry e w /\ spends dsha i w /\ nth_error (s_outs w) (Z.to_nat (si_vout i)) = Some o /\ so_value o = a).
Definition other_entry (e : list Z * list Z) : Prop := exists c k, fst e = c :: k /\ 1 < c /\ len k < 251.
(** The amount of the input [i], known or not, from its map. *)
Definition input_tells (dsha : list Z -> list Z) (i : s_txin) (m : list (list Z * list Z)) (a : option Z) : Prop :=
  match a with
  | None => Forall other_entry m
  | Some a => exists l1 e l2, m = l1 ++ e :: l2 /\ Forall other_entry (l1 ++ l2) /\ gives_amount dsha i e a
  end.
Inductive inputs_tell (dsha : list Z -> list Z) : list s_txin -> list (list (list Z * list Z)) -> list (option Z) -> Prop :=
| tell_nil : inputs_tell dsha [] [] []
| tell_cons : forall i is m ms a l, input_tells dsha i m a -> inputs_tell dsha is ms l -> inputs_tell dsha (i :: is) (m :: ms) (a :: l).

Definition known_amounts (l : list (option Z)) : list Z := flat_map (fun a => match a with Some a => [a] | None => [] end) l.
Definition all_known (l : list (option Z)) : bool := forallb (fun a => match a with Some _ => true | None => false end) l.
Definition all_worth (l : list (option Z)) : bool := forallb (fun a => match a with Some a => negb (a =? 0) | None => false end) l.
Definition total (l : list Z) : Z := fold_right Z.add 0 l.
(** What the transaction pays to the miner. *)
Definition s_fee (amounts : list (option Z)) (v : s_tx) : Z :=
  if all_known amounts then Z.max 0 (total (known_amounts amounts) - total (map so_value (s_outs v))) else 0.

(** A derivation path, four bytes for each index. *)
Definition path_bytes (path : list Z) : list Z := flat_map (le_bytes 4) path.
(** The entry of an output that says: the key at [x], [y] comes from the wallet [fp] along [path]. *)
Definition out_deriv (c : bool) (x y : Z) (fp path : list Z) : list Z * list Z :=
  (2 :: sec_bytes c x y, fp ++ path_bytes path).
Definition path_fine (fp path : list Z) : Prop :=
  bytes_ok fp /\ len fp = 4 /\ Forall (fun w => 0 <= w < 2^32) path /\ len path < 256 /\ len path <> 62.
