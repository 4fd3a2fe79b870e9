(** Objects as hexadecimal and base64 text (C83, C84). *)
From Coq Require Import Lia String.
From Verif Require Import Base.Bytes Base.BytesFacts Model.Conversion Model.Stream Model.Keys Model.Script Model.Tx Model.Signature Model.PSBT Model.Text
  Spec.Codecs Spec.Wire Spec.Objects Spec.Keys Spec.PSBT Spec.Text Proof.TextFacts Proof.TextMore Proof.Base64Exact Proof.TextPsbt.
From Verif Require Props.Tx Props.PSBT Props.Keys.
Open Scope Z_scope.

(** * C83: text of an object *)
(** toString() of an object whose bytes are [w] is their hexadecimal form. *)
Theorem C83_to_string : forall ser w, serialize ser (length w) 0 = Ok (len w, w) -> bytes_ok w -> len w < 2^62 ->
  to_string ser (len w) = Ok (hex_string w).
Proof. exact to_string_hex. Qed.
Print Assumptions C83_to_string.
(** serialize(offset, len) gives the hexadecimal form of the slice, 0 standing for the rest. *)
Theorem C83_substring : forall ser w off n, gives_slices ser w -> bytes_ok w -> len w < 2^60 -> 0 <= off <= len w -> 0 <= n < 2^60 ->
  to_hex ser (len w) off n = Ok (hex_string (if n =? 0 then skipn (Z.to_nat off) w else firstn (Z.to_nat n) (skipn (Z.to_nat off) w))).
Proof. exact to_hex_slice. Qed.
Print Assumptions C83_substring.
Example C83_substring_case : to_hex (script_to_stream (script_of [118; 169; 20])) 4 1 0 = Ok (chars "76a914") /\
  to_hex (script_to_stream (script_of [118; 169; 20])) 4 2 9 = Ok (chars "a914") /\
  to_string (script_to_stream (script_of [118; 169; 20])) 4 = Ok (chars "0376a914").
Proof. vm_compute. auto. Qed.
(** An offset beyond the end is not caught. *)
Theorem C83_offset_refuted : forall ser length off, 0 <= length -> length < off <= length + 2^62 -> length < 2^62 -> to_hex ser length off 0 = UB.
Proof. exact to_hex_offset. Qed.
Print Assumptions C83_offset_refuted.
Example C83_offset_case : to_hex (script_to_stream (script_of [118; 169; 20])) 4 4 0 = Ok [] /\ to_hex (script_to_stream (script_of [118; 169; 20])) 4 5 0 = UB.
Proof. vm_compute. auto. Qed.

(** * C83: parsing text *)
(** A parser given hexadecimal text of either case gets the bytes that it stands for. *)
Theorem C83_text_read : forall A (parse : A -> list Z -> outcome (A * Z * list Z)) n a text bs,
  hex_text text bs -> len text < 2^64 -> (length bs <= n)%nat -> text_parse parse n a text = parse a bs.
Proof. exact text_parse_ok. Qed.
Print Assumptions C83_text_read.
(** A transaction is what is read from its own text. *)
Theorem C83_tx_round_trip : forall t v t0 n, tx_holds t v -> small_tx v -> len (wire_tx v) < 2^62 -> t_status t0 = DONE -> (length (wire_tx v) <= n)%nat ->
  to_string (tx_to_stream t) (tx_length t) = Ok (hex_string (wire_tx v)) /\
  exists t', text_parse tx_parse n t0 (hex_string (wire_tx v)) = Ok (t', tx_length t, []) /\ t_status t' = DONE /\ tx_holds t' v.
Proof. exact tx_text_round. Qed.
Print Assumptions C83_tx_round_trip.
Definition text_of (t : tx) : list Z := match to_string (tx_to_stream t) (tx_length t) with Ok s => s | UB => [] end.
Example C83_tx_case : tx_holds Tx.ex_obj Tx.ex_tx /\ small_tx Tx.ex_tx /\
  firstn 12 (text_of Tx.ex_obj) = chars "020000000001" /\ len (text_of Tx.ex_obj) = 2 * len (wire_tx Tx.ex_tx).
Proof. split; [apply Tx.ex_tx_meets|]. split; [apply Tx.ex_tx_meets|]. vm_compute. repeat split. Qed.

(** * C83: text that is not hexadecimal *)
(** In full: text with a character that is not a hexadecimal digit is refused. In fact everything from the first such
    character on is read as bytes 255, as many as the parser asks for. *)
Theorem C83_bad_digit_refuted : forall A (parse : A -> list Z -> outcome (A * Z * list Z)) n a t bs x y rest,
  hex_text t bs -> len t = 2 * len bs -> not_hex x y -> no_nul (x :: y :: rest) -> len (t ++ x :: y :: rest) < 2^64 -> (length bs <= n)%nat ->
  text_parse parse n a (t ++ x :: y :: rest) = parse a (bs ++ repeat 255 (n - length bs)).
Proof. exact text_parse_stuck. Qed.
Print Assumptions C83_bad_digit_refuted.
(** So a transaction whose last one to four bytes are replaced by other text is accepted, with another lock time. *)
Theorem C83_tx_refuted : forall t v j x y rest n, t_status t = DONE -> tx_ok v -> Forall wit_ok (s_ins v) ->
  1 <= len (s_ins v) < 253 -> len (s_outs v) < 253 -> len (wire_tx v) < 2^60 -> 1 <= j <= 4 -> not_hex x y -> no_nul (x :: y :: rest) -> len rest < 2^60 ->
  (length (wire_tx v) <= n)%nat ->
  let text := hex_string (firstn (length (wire_tx v) - Z.to_nat j) (wire_tx v)) ++ x :: y :: rest in
  exists t' r, text_parse tx_parse n t text = Ok (t', len (wire_tx v), r) /\ t_status t' = DONE /\ tx_holds t' (with_lock v (top_ones j (s_lock v))).
Proof. exact tx_text_stuck. Qed.
Print Assumptions C83_tx_refuted.
Example C83_tx_bad_case : let w := wire_tx Tx.ex_tx in
  match text_parse tx_parse (length w + 3) tx_new (hex_string (firstn (length w - 2) w) ++ chars "0x?") with
  | Ok (t, n, _) => t_status t = DONE /\ n = len w /\ t_lock t = top_ones 2 (s_lock Tx.ex_tx) /\ t_lock t <> s_lock Tx.ex_tx
  | UB => False end.
Proof. vm_compute. repeat split. discriminate. Qed.
(** The same for the contents of a script, *)
Theorem C83_script_refuted : forall s old bs k x y rest n, sc_status s = DONE -> script_holds s old -> bytes_ok bs -> len bs < 2^31 ->
  (k <= length bs)%nat -> not_hex x y -> no_nul (x :: y :: rest) -> len rest < 2^60 -> (length (wire_bytes bs) <= n)%nat ->
  let text := hex_string (compact_size (len bs) ++ firstn k bs) ++ x :: y :: rest in
  exists s' r, text_parse script_parse n s text = Ok (s', len (wire_bytes bs), r) /\ sc_status s' = DONE /\
    script_holds s' (firstn k bs ++ repeat 255 (length bs - k)).
Proof. exact script_text_stuck. Qed.
Print Assumptions C83_script_refuted.
Example C83_script_case : text_parse script_parse 9 script_new (chars "0376 a914") = Ok (mkScript [118; 255; 255] 3 1 DONE 4, 4, repeat 255 5).
Proof. vm_compute. reflexivity. Qed.
(** for a Schnorr signature, *)
Theorem C83_schnorr_refuted : forall g bs x y rest n, sn_status g = DONE -> bytes_ok bs -> (length bs < 64)%nat -> not_hex x y -> no_nul (x :: y :: rest) -> len rest < 2^60 -> (64 <= n)%nat ->
  exists g' r, text_parse sch_parse n g (hex_string bs ++ x :: y :: rest) = Ok (g', 64, r) /\ sn_status g' = DONE /\ sn_r g' ++ sn_s g' = bs ++ repeat 255 (64 - length bs).
Proof. exact sch_text_stuck. Qed.
Print Assumptions C83_schnorr_refuted.
Example C83_schnorr_case : match text_parse sch_parse 64 sch_new (chars "no signature") with Ok (g, n, _) => sn_status g = DONE /\ n = 64 | UB => False end.
Proof. vm_compute. auto. Qed.
(** and for a secret: any text of which a pair of characters is not hexadecimal is a private key. *)
Theorem C83_secret_refuted : forall k bs x y rest n, length (sc_num k) = 32%nat -> Keys.sc_status k = DONE -> bytes_ok bs -> (length bs < 32)%nat -> not_hex x y -> no_nul (x :: y :: rest) -> len rest < 2^60 -> (32 <= n)%nat ->
  exists k' r, text_parse sc_parse n k (hex_string bs ++ x :: y :: rest) = Ok (k', 32, r) /\ Keys.sc_status k' = DONE /\ length (sc_num k') = 32%nat /\
    be_val 256 (sc_num k') = be_val 256 (bs ++ repeat 255 (32 - length bs)) mod group_order.
Proof. exact sc_text_accepts. Qed.
Print Assumptions C83_secret_refuted.
Example C83_secret_case : let text := chars "my key" in not_hex (nth 0 text 0) (nth 1 text 0) /\ no_nul text /\
  match text_parse sc_parse 40 sc_new text with Ok (k, n, _) => Keys.sc_status k = DONE /\ be_val 256 (sc_num k) = 2^256 - 1 - group_order | UB => False end.
Proof.
  split; [left; intros (v & H); change (nth 0 (chars "my key") 0) with 109 in H; unfold is_hex_digit in H; lia|]. split; [repeat (constructor; [vm_compute; discriminate|]); constructor|]. vm_compute. auto.
Qed.

(** * C83: base64 text of a PSBT *)
(** hexToBase64 and base64ToHex. *)
Theorem C83_base64_hex : forall bs, bytes_ok bs -> bs <> [] ->
  hexToBase64 (hex_string bs) = Ok (base64_text false true bs) /\ base64ToHex (base64_text false true bs) = Ok (hex_string bs).
Proof. exact (fun bs B N => conj (hexToBase64_ok bs B N) (base64ToHex_ok bs B N)). Qed.
Print Assumptions C83_base64_hex.
Example C83_base64_ex : hexToBase64 (chars "70736274ff") = Ok (chars "cHNidP8=") /\ base64ToHex (chars "cHNidP8=") = Ok (chars "70736274ff").
Proof. vm_compute. auto. Qed.
(** toBase64() followed by parseBase64() keeps the transaction and the signatures (C54 says what is lost). *)
Theorem C83_psbt_base64 : forall dsha garbage p q v sigs, psbt_holds p v sigs -> psbt_tx v -> Forall (Forall psig_ok) sigs ->
  Forall (fun l => len l <= 255) sigs -> reusable dsha garbage q ->
  exists maps, let w := wire_psbt (wire_tx v) [] (maps ++ repeat [] (length (s_outs v))) in
  Forall2 (Forall2 psig_pair) sigs maps /\ (len w < 2^62 -> psbt_toBase64 p = Ok (base64_text false true w) /\
  exists p', psbt_parseBase64 dsha garbage q (base64_text false true w) = Ok (p', len w) /\ ps_status p' = DONE /\ psbt_holds p' v sigs /\ only_sigs p').
Proof. exact psbt_base64. Qed.
Print Assumptions C83_psbt_base64.
Definition base64_of (p : psbt) : list Z := match psbt_toBase64 p with Ok s => s | UB => [] end.
Example C83_psbt_case : psbt_holds PSBT.ex_object PSBT.ex_psbt_tx [[PSBT.ex_psig false 5 (2^255); PSBT.ex_psig true 6 7]; []] /\
  firstn 16 (base64_of PSBT.ex_object) = chars "cHNidP8BAHACAAAA" /\ len (base64_of PSBT.ex_object) = 372.
Proof. split; [apply PSBT.C54_case|]. vm_compute. repeat split. Qed.
(** What is not base64 is refused (C84 says what counts as base64); *)
Theorem C83_psbt_refuses : forall dsha garbage q text, reusable dsha garbage q -> text <> [] -> no_nul text -> (~ exists bs, b64_reads text bs) ->
  exists p', psbt_parseBase64 dsha garbage q text = Ok (p', 0) /\ ps_status p' = FAILED.
Proof. exact psbt_refuses. Qed.
Print Assumptions C83_psbt_refuses.
(** but the object then takes no other text, and parseBase64() still returns the number of bytes in it. *)
Theorem C83_psbt_again_refuted : forall dsha garbage q bs, ps_status q = FAILED -> bytes_ok bs -> bs <> [] -> len bs < 2^62 ->
  psbt_parseBase64 dsha garbage q (base64_text false true bs) = Ok (q, len bs).
Proof. exact psbt_failed_base64. Qed.
Print Assumptions C83_psbt_again_refuted.
Example C83_psbt_again_case : match psbt_parseBase64 PSBT.toy [] psbt_new (chars "cHN!") with
  | Ok (p, n) => n = 0 /\ ps_status p = FAILED /\ psbt_parseBase64 PSBT.toy [] p (chars "cHNidP8=") = Ok (p, 5)
  | UB => False end.
Proof. vm_compute. repeat split. Qed.

(** * C84 *)
(** In full: fromBase64 takes the text of RFC 4648 and nothing else. Proved: exactly what it takes, and for what. *)
Theorem C84_base64_exact_partial : forall text out l, no_nul text -> fromBase64Length b64_std text = Ok l -> l <= len out ->
  (forall bs, b64_reads text bs -> len bs <= len out -> fromBase64 b64_std text out = Ok (len bs, bs ++ zeros (length out - length bs))) /\
  ((forall bs, b64_reads text bs -> len out < len bs) -> fromBase64 b64_std text out = Ok (0, zeros (length out))).
Proof. exact base64_exact. Qed.
Print Assumptions C84_base64_exact_partial.
Example C84_exact_case : fromBase64 b64_std (chars "Zm9v") (zeros 3) = Ok (3, [102; 111; 111]) /\ fromBase64 b64_std (chars "Zm9!") (zeros 3) = Ok (0, [0; 0; 0]) /\
  b64_reads (chars "Zm9v") [102; 111; 111] /\ ~ exists bs, b64_reads (chars "Zm9!") bs.
Proof.
  assert (D : forall d, 0 <= d < 64 -> b64_digit (nth (Z.to_nat d) (b64_alphabet false) 0) d) by (intros; split; auto).
  split; [reflexivity|]. split; [reflexivity|]. split.
  - exact (br_four 90 109 57 118 25 38 61 47 [] [] (D 25 ltac:(lia)) (D 38 ltac:(lia)) (D 61 ltac:(lia)) (D 47 ltac:(lia)) br_end).
  - intros (bs & B). change (chars "Zm9!") with [90; 109; 57; 33] in B. inversion B; subst.
    match goal with X : b64_digit 33 ?d |- _ => destruct X as (R & E) end.
    assert (S : forall d, 0 <= d < Z.of_nat 64 -> negb (33 =? nth (Z.to_nat d) (b64_alphabet false) 0) = true) by (apply zrange_sweep; vm_compute; reflexivity).
    specialize (S d3 ltac:(lia)). rewrite <- E in S. discriminate.
Qed.
(** After the padding any text may follow; *)
Theorem C84_trailing_refuted : forall bs rest, bytes_ok bs -> len bs mod 3 <> 0 -> no_nul rest -> len rest mod 4 = 0 ->
  base64ToHex (base64_text false true bs ++ rest) = Ok (hex_string bs).
Proof. exact trailing_hex. Qed.
Print Assumptions C84_trailing_refuted.
Example C84_trailing_case : base64ToHex (chars "cHNidP8=!!!!") = Ok (chars "70736274ff").
Proof. vm_compute. reflexivity. Qed.
(** in a group with one byte the second '=' may be any character, and the four spare bits may be anything. *)
Theorem C84_last_group_refuted : forall d0 d1 x out, 0 <= d0 < 64 -> 0 <= d1 < 64 -> x <> 0 -> 2 <= len out ->
  let ch := fun d => nth (Z.to_nat d) (b64_alphabet false) 0 in
  fromBase64 b64_std [ch d0; ch d1; 61; x] out = Ok (1, (d0 * 64 + d1) / 16 :: zeros (length out - 1)).
Proof. exact last_group. Qed.
Print Assumptions C84_last_group_refuted.
Example C84_last_group_case : base64ToHex (chars "Zg==") = Ok (chars "66") /\ base64ToHex (chars "Zh=?") = Ok (chars "66").
Proof. vm_compute. auto. Qed.
