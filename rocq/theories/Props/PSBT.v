(** C53-C56, C67, C68: partially signed transactions; with it C15 and C17 for them.
    [dsha] is the double SHA-256 and [garbage] what lies on the stack. *)
From Coq Require Import Lia.
From Verif Require Import Base.Bytes Base.BytesFacts Spec.Codecs Spec.Wire Spec.Objects Spec.Signature Spec.Point Spec.PSBT
  Model.Stream Model.Script Model.Tx Model.Signature Model.Point Model.PSBT Proof.TxParse Proof.PsbtProps Proof.PsbtMore Proof.PsbtStrict Proof.PsbtFee.
Open Scope Z_scope.

(** ** Examples: a transaction with two inputs and two outputs, the transaction that the first input
    spends, and the output that the second one spends *)
Definition toy (l : list Z) : list Z := firstn 32 (l ++ zeros 32).
Definition ex_prev : s_tx :=
  {| s_version := 1; s_ins := [{| si_prev := repeat 9 32; si_vout := 3; si_sig := [1; 2]; si_seq := 7; si_wit := [] |}];
     s_outs := [{| so_value := 500; so_script := [81] |}; {| so_value := 1000; so_script := [82; 83] |}]; s_lock := 0 |}.
Definition ex_utxo : s_txout := {| so_value := 77; so_script := [81; 82] |}.
Definition ex_in : s_txin := {| si_prev := toy (wire_legacy ex_prev); si_vout := 1; si_sig := []; si_seq := 7; si_wit := [] |}.
Definition ex_psbt_tx : s_tx :=
  {| s_version := 2; s_ins := [ex_in; {| si_prev := repeat 8 32; si_vout := 5; si_sig := []; si_seq := 7; si_wit := [] |}];
     s_outs := [{| so_value := 300; so_script := [81; 81] |}; {| so_value := 400; so_script := [] |}]; s_lock := 0 |}.
Definition ex_maps : list (list (list Z * list Z)) := [[([0], wire_tx ex_prev)]; [([1], wire_out ex_utxo); ([4], [81; 81; 82])]].
Lemma bytes_check : forall l, forallb (fun b => (0 <=? b) && (b <? 256)) l = true -> bytes_ok l.
Proof. intros l H. apply Forall_forall. intros b I. rewrite forallb_forall in H. specialize (H b I). unfold byte_ok. lia. Qed.
Ltac carries :=
  unfold carried, tx_ok, in_ok, out_ok, wit_ok, plain_length;
  repeat match goal with
         | |- _ /\ _ => split
         | |- Forall _ ?l => let l' := eval hnf in l in change l with l'; constructor
         | |- bytes_ok _ => apply bytes_check; vm_compute; reflexivity
         | |- ~ _ => vm_compute; intros [? ?]; congruence
         | |- _ <> _ => vm_compute; discriminate
         | |- _ => vm_compute; solve [reflexivity | discriminate]
         end.
Example ex_prev_carried : carried ex_prev.
Proof. carries. Qed.
Example ex_tx_carried : carried ex_psbt_tx.
Proof. carries. Qed.
Example ex_psbt : psbt_tx ex_psbt_tx.
Proof. split; [exact ex_tx_carried|discriminate]. Qed.
Lemma pair_check : forall e, forallb (fun b => (0 <=? b) && (b <? 256)) (fst e ++ snd e) = true -> negb (len (fst e) =? 0) && (len (fst e ++ snd e) <? 2^31) = true -> pair_ok e.
Proof.
  intros [k v] B L. apply bytes_check, bytes_ok_app in B as [B1 B2]. cbn [fst snd] in *. rewrite len_app in L. pose proof (len_nonneg _ k). pose proof (len_nonneg _ v).
  split; [intros E; cbn [fst] in E; rewrite E in L; discriminate|]. cbn [fst snd]. repeat split; auto; lia.
Qed.
Example ex_fits : fits_maps ex_psbt_tx [] ex_maps [[]; []].
Proof.
  split; [reflexivity|]. split; [reflexivity|]. split; [constructor|]. unfold ex_maps. cbn [app].
  repeat match goal with |- Forall _ (_ :: _) => constructor | |- Forall _ [] => constructor | |- pair_ok _ => apply pair_check; vm_compute; reflexivity end.
Qed.
Example ex_tells : inputs_tell toy (s_ins ex_psbt_tx) ex_maps [Some 1000; Some 77].
Proof.
  constructor; [|constructor; [|constructor]].
  - exists [], ([0], wire_tx ex_prev), []. split; [reflexivity|]. split; [constructor|]. right. exists ex_prev, {| so_value := 1000; so_script := [82; 83] |}.
    split; [split; [reflexivity|exact ex_prev_carried]|]. split; [split; reflexivity|]. split; reflexivity.
  - exists [], ([1], wire_out ex_utxo), [([4], [81; 81; 82])]. split; [reflexivity|]. split.
    + constructor; [|constructor]. exists 4, []. repeat split.
    + left. exists ex_utxo. split; [|reflexivity]. split; [reflexivity|]. split; [repeat split; try (apply bytes_check); reflexivity || discriminate|]. split; [|reflexivity].
      split; vm_compute; [discriminate|intros [? ?]; congruence].
Qed.
(** What a parse of bytes shows: status, bytes read, bytes left, the amounts of the inputs, the fee. *)
Definition shows (r : outcome (psbt * Z * list Z)) :=
  match r with
  | Ok (p, n, s) => Ok (ps_status p, n, len s, match ps_ins p with Some l => map (fun m => to_amount (im_out m)) l | None => [] end, psbt_fee p)
  | UB => UB
  end.

(** * C53 *)
(** The fee is what the inputs are worth minus what the outputs are worth, when every amount is known
    (none of them zero) and both sums fit in 64 bits; 0 when an amount is not known or the outputs are
    worth more. The amounts are those in the bytes that were parsed. *)
Theorem C53_fee_partial : forall dsha garbage v global mi mo rest p n r amounts, psbt_tx v -> fits_maps v global mi mo -> inputs_tell dsha (s_ins v) mi amounts ->
  psbt_parse dsha garbage psbt_new (wire_psbt (wire_tx v) global (mi ++ mo) ++ rest) = Ok (p, n, r) -> ps_status p = DONE ->
  Forall (fun a => a <> Some 0) amounts -> total (known_amounts amounts) < 2^64 -> total (map so_value (s_outs v)) < 2^64 ->
  psbt_fee p = Ok (s_fee amounts v).
Proof. exact psbt_fee_ok. Qed.
Print Assumptions C53_fee_partial.
Example C53_case : shows (psbt_parse toy [] psbt_new (wire_psbt (wire_tx ex_psbt_tx) [] (ex_maps ++ [[]; []]) ++ [5])) = Ok (DONE, 222, 1, [1000; 77], Ok 377) /\
  s_fee [Some 1000; Some 77] ex_psbt_tx = 377 /\ s_fee [Some 1000; None] ex_psbt_tx = 0 /\ s_fee [Some 100; Some 77] ex_psbt_tx = 0.
Proof. vm_compute. auto. Qed.
(** For all amounts: the sums are taken modulo 2^64, and an input worth nothing counts as unknown. *)
Theorem C53_fee_exact : forall dsha garbage v global mi mo rest p n r amounts, psbt_tx v -> fits_maps v global mi mo -> inputs_tell dsha (s_ins v) mi amounts ->
  psbt_parse dsha garbage psbt_new (wire_psbt (wire_tx v) global (mi ++ mo) ++ rest) = Ok (p, n, r) -> ps_status p = DONE ->
  psbt_fee p = Ok (if all_worth amounts then Z.max 0 (total (known_amounts amounts) mod 2^64 - total (map so_value (s_outs v)) mod 2^64) else 0).
Proof. exact psbt_fee_exact. Qed.
Print Assumptions C53_fee_exact.
(** Two inputs worth 2^63 + 500 each: the fee that is shown lacks 2^64. *)
Example C53_exact_case :
  let o := {| so_value := 2^63 + 500; so_script := [81; 82] |} in let maps := [[([1], wire_out o)]; [([1], wire_out o)]; []; []] in
  shows (psbt_parse toy [] psbt_new (wire_psbt (wire_tx ex_psbt_tx) [] maps)) = Ok (DONE, 153, 0, [2^63 + 500; 2^63 + 500], Ok 300) /\
  s_fee [Some (2^63 + 500); Some (2^63 + 500)] ex_psbt_tx = 2^64 + 300.
Proof. vm_compute. auto. Qed.
(** An input that is known to be worth nothing makes the fee 0, whatever the others are worth. *)
Theorem C53_zero_refuted : forall dsha garbage v global mi mo rest p n r amounts, psbt_tx v -> fits_maps v global mi mo -> inputs_tell dsha (s_ins v) mi amounts ->
  psbt_parse dsha garbage psbt_new (wire_psbt (wire_tx v) global (mi ++ mo) ++ rest) = Ok (p, n, r) -> ps_status p = DONE ->
  In (Some 0) amounts -> total (known_amounts amounts) < 2^64 -> psbt_fee p = Ok 0.
Proof. exact psbt_fee_zero. Qed.
Print Assumptions C53_zero_refuted.
Example C53_zero_case :
  let maps := [[([0], wire_tx ex_prev)]; [([1], wire_out {| so_value := 0; so_script := [81; 82] |})]; []; []] in
  shows (psbt_parse toy [] psbt_new (wire_psbt (wire_tx ex_psbt_tx) [] maps)) = Ok (DONE, 216, 0, [1000; 0], Ok 0) /\
  s_fee [Some 1000; Some 0] ex_psbt_tx = 300.
Proof. vm_compute. auto. Qed.
(** Outputs that are worth more than the inputs, by so much that the sum wraps round: a fee is shown. *)
Theorem C53_wrap_refuted : forall dsha garbage v global mi mo rest p n r amounts, psbt_tx v -> fits_maps v global mi mo -> inputs_tell dsha (s_ins v) mi amounts ->
  psbt_parse dsha garbage psbt_new (wire_psbt (wire_tx v) global (mi ++ mo) ++ rest) = Ok (p, n, r) -> ps_status p = DONE ->
  Forall (fun a => a <> Some 0) amounts -> all_known amounts = true -> total (known_amounts amounts) < 2^64 ->
  total (map so_value (s_outs v)) mod 2^64 < total (known_amounts amounts) ->
  psbt_fee p = Ok (total (known_amounts amounts) - total (map so_value (s_outs v)) mod 2^64).
Proof. exact psbt_fee_mod. Qed.
Print Assumptions C53_wrap_refuted.
Definition ex_rich : s_tx :=
  {| s_version := 2; s_ins := [ex_in]; s_outs := [{| so_value := 2^63 + 50; so_script := [81] |}; {| so_value := 2^63; so_script := [82] |}]; s_lock := 0 |}.
Example C53_wrap_case : carried ex_rich /\ total (map so_value (s_outs ex_rich)) = 2^64 + 50 /\
  shows (psbt_parse toy [] psbt_new (wire_psbt (wire_tx ex_rich) [] [[([0], wire_tx ex_prev)]; []; []])) = Ok (DONE, 160, 0, [1000], Ok 950) /\
  s_fee [Some 1000] ex_rich = 0.
Proof. split; [carries|]. vm_compute. auto. Qed.

(** * C54 *)
(** Serializing gives the BIP 174 bytes of the transaction and the partial signatures, and parsing those
    gives an object that holds the same, whatever follows and also when the object has been used before. *)
Theorem C54_round_trip_partial : forall dsha garbage p q v sigs, psbt_holds p v sigs -> psbt_tx v -> Forall (Forall psig_ok) sigs ->
  Forall (fun l => len l <= 255) sigs -> reusable dsha garbage q ->
  exists maps, let w := wire_psbt (wire_tx v) [] (maps ++ repeat [] (length (s_outs v))) in
  Forall2 (Forall2 psig_pair) sigs maps /\ psbt_length p = Ok (len w) /\ serialize (psbt_to_stream p) (length w) 0 = Ok (len w, w) /\
  forall rest, exists p', psbt_parse dsha garbage q (w ++ rest) = Ok (p', len w, rest) /\ ps_status p' = DONE /\ psbt_holds p' v sigs /\ only_sigs p'.
Proof. exact psbt_round_trip. Qed.
Print Assumptions C54_round_trip_partial.
(** The generator; a compressed and an uncompressed key. *)
Definition ex_gx : Z := 0x79be667ef9dcbbac55a06295ce870b07029bfcdb2dce28d959f2815b16f81798.
Definition ex_gy : Z := 0x483ada7726a3c4655da4fbfc0e1108a8fd17b448a68554199c47d08ffb10d4b8.
Definition ex_psig (c : bool) (r s : Z) : s_psig := {| g_comp := c; g_x := ex_gx; g_y := ex_gy; g_r := r; g_s := s |}.
Definition ex_sig (c : bool) (r s : Z) : ecpoint * signature :=
  (mkPt (coords ex_gx ex_gy) c DONE 0, sig_of (be_bytes 32 r) (be_bytes 32 s)).
Definition ex_object : psbt :=
  mkPsbt script_new script_new 0 0 (parsed_tx ex_psbt_tx)
    (Some [mkInMeta (mkTxout [] 77 script_new DONE 0) [] script_new script_new [ex_sig false 5 (2^255); ex_sig true 6 7]; im_new]) (Some [om_new; om_new]) DONE 0.
Example C54_case : psbt_holds ex_object ex_psbt_tx [[ex_psig false 5 (2^255); ex_psig true 6 7]; []] /\ psig_ok (ex_psig false 5 (2^255)) /\ ~ only_sigs ex_object /\
  (exists w, serialize (psbt_to_stream ex_object) 279 0 = Ok (279, w) /\ skipn 267 w = [6; 2; 1; 6; 2; 1; 7; 1; 0; 0; 0; 0] /\ psbt_length ex_object = Ok 279).
Proof.
  split; [|split; [|split]].
  - split; [apply parsed_tx_holds; apply ex_tx_carried|]. eexists _, _. split; [reflexivity|]. split; [reflexivity|]. split; [reflexivity|]. split; [reflexivity|].
    constructor; [|constructor; [|constructor]]; [|constructor]. cbn [im_sigs]. repeat (constructor; [split; [reflexivity|]; split; [reflexivity|]|]); [| |constructor];
      repeat split; try reflexivity; try (apply bytes_check; vm_compute; reflexivity).
  - vm_compute. repeat split; discriminate.
  - intros ((ins & E & F) & _). injection E as <-. apply Forall_inv in F. destruct F as (F & _). discriminate.
  - eexists. vm_compute. repeat split.
Qed.
(** Everything else that a PSBT may hold for its inputs and outputs is lost: previous transactions,
    amounts, scripts, derivations. *)
Theorem C54_fields_refuted : forall dsha garbage p q v sigs, psbt_holds p v sigs -> psbt_tx v -> Forall (Forall psig_ok) sigs ->
  Forall (fun l => len l <= 255) sigs -> reusable dsha garbage q -> ~ only_sigs p ->
  exists w p', serialize (psbt_to_stream p) (length w) 0 = Ok (len w, w) /\ psbt_parse dsha garbage q w = Ok (p', len w, []) /\ ps_status p' = DONE /\ ps_metas p' <> ps_metas p.
Proof. exact fields_lost. Qed.
Print Assumptions C54_fields_refuted.
(** Signatures of any type are taken, and written with the type SIGHASH_ALL. *)
Theorem C54_types_refuted : forall dsha garbage q v sigs maps rest, reusable dsha garbage q -> psbt_tx v -> length sigs = length (s_ins v) -> Forall (Forall psig_ok) sigs ->
  Forall (fun l => len l <= 255) sigs -> Forall2 (Forall2 psig_any) sigs maps ->
  let w := wire_psbt (wire_tx v) [] (maps ++ repeat [] (length (s_outs v))) in
  exists p maps', psbt_parse dsha garbage q (w ++ rest) = Ok (p, len w, rest) /\ ps_status p = DONE /\ Forall2 (Forall2 psig_pair) sigs maps' /\
    let w' := wire_psbt (wire_tx v) [] (maps' ++ repeat [] (length (s_outs v))) in serialize (psbt_to_stream p) (length w') 0 = Ok (len w', w').
Proof. exact types_lost. Qed.
Print Assumptions C54_types_refuted.
Example C54_types_case : psig_any (ex_psig false 6 7) (2 :: sec_bytes false ex_gx ex_gy, [48; 6; 2; 1; 6; 2; 1; 7] ++ [131]) /\
  ~ psig_pair (ex_psig false 6 7) (2 :: sec_bytes false ex_gx ex_gy, [48; 6; 2; 1; 6; 2; 1; 7] ++ [131]).
Proof.
  split.
  - exists 131. split; [lia|]. exists [48; 6; 2; 1; 6; 2; 1; 7]. split; [|reflexivity]. exists [6], [7]. repeat split; try reflexivity; try (apply bytes_check; reflexivity); cbn [be_val fold_left nth]; try lia; try discriminate.
  - intros (d & _ & E). apply (f_equal (fun e => last (snd e) 0)) in E. cbn [snd] in E. rewrite !last_last in E. discriminate.
Qed.
(** With 255 inputs and outputs in all, a PSBT is never accepted. *)
Theorem C54_sections_refuted : forall dsha garbage q v rest, reusable dsha garbage q -> carried v -> 1 + len (s_ins v) + len (s_outs v) = 256 ->
  let w := [112; 115; 98; 116; 255] ++ wire_pair ([0], wire_tx v) ++ rest in
  psbt_parse dsha garbage q w = UB \/ exists p n r, psbt_parse dsha garbage q w = Ok (p, n, r) /\ ps_status p <> DONE.
Proof. exact sections_wrap_any. Qed.
Print Assumptions C54_sections_refuted.
Example C54_sections_case : let v := {| s_version := 2; s_ins := [ex_in; ex_in; ex_in]; s_outs := repeat {| so_value := 3; so_script := [81] |} 252; s_lock := 0 |} in
  carried v /\ 1 + len (s_ins v) + len (s_outs v) = 256.
Proof.
  split; [|reflexivity]. split; [|split; [|split; [split; [discriminate|reflexivity]|split; [reflexivity|split; [reflexivity|split; [discriminate|intros [? ?]; vm_compute in *; congruence]]]]]].
  - split; [cbn [s_version]; lia|]. split; [cbn [s_lock]; lia|]. split; [unfold in_ok; carries|]. cbn [s_outs]. apply Forall_forall. intros o I. apply repeat_spec in I as ->. unfold out_ok. carries.
  - unfold wit_ok. carries.
Qed.
(** A transaction of 252 bytes: the PSBT that the library writes for it is refused by its own parser. *)
Theorem C54_length_refuted :
  let v := {| s_version := 2; s_ins := [ex_in]; s_outs := [{| so_value := 3; so_script := repeat 81 192 |}]; s_lock := 0 |} in
  let w := wire_psbt (wire_tx v) [] [[]; []] in
  carried {| s_version := 2; s_ins := [ex_in]; s_outs := [{| so_value := 3; so_script := repeat 81 191 |}]; s_lock := 0 |} /\ len (wire_tx v) = 252 /\
  serialize (psbt_to_stream (mkPsbt script_new script_new 0 0 (parsed_tx v) (Some [im_new]) (Some [om_new]) DONE 0)) (length w) 0 = Ok (len w, w) /\
  exists p n r, psbt_parse toy [] psbt_new w = Ok (p, n, r) /\ ps_status p = FAILED.
Proof. split; [carries|]. split; [reflexivity|]. split; [vm_compute; reflexivity|]. do 3 eexists. split; vm_compute; reflexivity. Qed.
Print Assumptions C54_length_refuted.

(** * C15 *)
(** Writing in slices does not give the slices of the whole. *)
Theorem C15_psbt_refuted : exists w, serialize (psbt_to_stream ex_object) 279 0 = Ok (279, w) /\ ~ gives_slices (psbt_to_stream ex_object) w.
Proof.
  eexists. split; [vm_compute; reflexivity|]. intros H. specialize (H 10%nat 150 ltac:(lia)). vm_compute in H. discriminate.
Qed.
Print Assumptions C15_psbt_refuted.

(** * C17 *)
(** A first chunk of at most seven bytes makes every PSBT fail. *)
Theorem C17_psbt_start_refuted : forall dsha garbage t global maps k, (1 <= k <= 7)%nat ->
  exists p n r, psbt_parse dsha garbage psbt_new (firstn k (wire_psbt t global maps)) = Ok (p, n, r) /\ ps_status p = FAILED.
Proof. exact start_cut. Qed.
Print Assumptions C17_psbt_start_refuted.
(** A cut inside an entry loses the entry, although the parse completes. *)
Theorem C17_psbt_cut_refuted : let w := wire_psbt (wire_tx ex_psbt_tx) [] (ex_maps ++ [[]; []]) in
  shows (psbt_parse toy [] psbt_new w) = Ok (DONE, 222, 0, [1000; 77], Ok 377) /\
  shows (feed (psbt_parse toy []) ps_status psbt_new [firstn 150 w; skipn 150 w]) = Ok (DONE, 222, 0, [0; 77], Ok 0).
Proof. vm_compute. auto. Qed.
Print Assumptions C17_psbt_cut_refuted.

(** * C55 *)
(** When a PSBT is accepted, every previous transaction in it is the one that its input spends. *)
Theorem C55_checked_partial : forall dsha garbage p v global mi mo rest p' n r, reusable dsha garbage p -> psbt_tx v -> fits_maps v global mi mo ->
  psbt_parse dsha garbage p (wire_psbt (wire_tx v) global (mi ++ mo) ++ rest) = Ok (p', n, r) -> ps_status p' = DONE ->
  forall j i m e w, nth_error (s_ins v) j = Some i -> nth_error mi j = Some m -> In e m -> prev_entry e w -> spends dsha i w.
Proof. exact prev_checked_any. Qed.
Print Assumptions C55_checked_partial.
(** The same for any bytes: they parse to a transaction that hashes to what the input names. *)
Theorem C55_bytes_partial : forall dsha garbage p v global mi mo rest p' n r, reusable dsha garbage p -> psbt_tx v -> fits_maps v global mi mo ->
  psbt_parse dsha garbage p (wire_psbt (wire_tx v) global (mi ++ mo) ++ rest) = Ok (p', n, r) -> ps_status p' = DONE ->
  forall j i m b, nth_error (s_ins v) j = Some i -> nth_error mi j = Some m -> In ([0], b) m -> plain_length (len b) ->
  exists t k s, tx_parse tx_new b = Ok (t, k, s) /\ t_status t = DONE /\ tx_hash dsha t = Ok (si_prev i) /\ si_vout i < len (t_outs t).
Proof. exact prev_bytes_any. Qed.
Print Assumptions C55_bytes_partial.
Example C55_case : prev_entry ([0], wire_tx ex_prev) ex_prev /\ spends toy ex_in ex_prev /\
  ~ spends toy {| si_prev := repeat 8 32; si_vout := 5; si_sig := []; si_seq := 7; si_wit := [] |} ex_prev /\
  shows (psbt_parse toy [] psbt_new (wire_psbt (wire_tx ex_psbt_tx) [] [[]; [([0], wire_tx ex_prev)]; []; []])) = Ok (FAILED, 199, 3, [0; 0], Ok 0).
Proof.
  split; [split; [reflexivity|exact ex_prev_carried]|]. split; [split; reflexivity|]. split; [|vm_compute; reflexivity].
  intros (_ & K). vm_compute in K. discriminate.
Qed.
(** But an output given beside it replaces, unchecked, what the checked transaction says. *)
Theorem C55_override_refuted : forall dsha garbage q v i w e1 e2 o rest, reusable dsha garbage q -> psbt_tx v -> s_ins v = [i] -> prev_entry e1 w -> spends dsha i w -> utxo_entry e2 o ->
  let x := wire_psbt (wire_tx v) [] ([[e1; e2]] ++ repeat [] (length (s_outs v))) in
  exists p m, psbt_parse dsha garbage q (x ++ rest) = Ok (p, len x, rest) /\ ps_status p = DONE /\ ps_ins p = Some [m] /\ txout_holds (im_out m) o.
Proof. exact override. Qed.
Print Assumptions C55_override_refuted.
Example C55_override_case : let v := {| s_version := 2; s_ins := [ex_in]; s_outs := [{| so_value := 30; so_script := [81] |}]; s_lock := 0 |} in
  psbt_tx v /\ utxo_entry ([1], wire_out ex_utxo) ex_utxo /\ nth_error (s_outs ex_prev) 1 = Some {| so_value := 1000; so_script := [82; 83] |} /\
  shows (psbt_parse toy [] psbt_new (wire_psbt (wire_tx v) [] [[([0], wire_tx ex_prev); ([1], wire_out ex_utxo)]; []])) = Ok (DONE, 163, 0, [77], Ok 47).
Proof.
  split; [split; [carries|discriminate]|]. split; [|vm_compute; auto]. split; [reflexivity|]. split; [repeat split; try (apply bytes_check); reflexivity || discriminate|].
  split; [|reflexivity]. split; vm_compute; [discriminate|intros [? ?]; congruence].
Qed.

(** * C56 *)
(** isMine says yes only for an output with a derivation entry whose key the wallet derives along the
    path of the entry. [derive] is the derivation of the wallet's key, as a point. *)
Theorem C56_derives_partial : forall derive p k, psbt_isMine derive p k = Ok true ->
  exists outs m d, ps_outs p = Some outs /\ 0 <= k /\ nth_error outs (Z.to_nat k) = Some m /\ In d (om_ders m) /\ derive (d_path d) = Ok (pt_xy (d_pub d)).
Proof. exact mine_sound. Qed.
Print Assumptions C56_derives_partial.
(** What the output pays to plays no part: whatever the transaction is, its outputs are claimed by an
    entry with some key of the wallet. *)
Theorem C56_script_refuted : forall dsha garbage derive q v k c x y fp path rest, reusable dsha garbage q -> psbt_tx v -> 0 <= k < len (s_outs v) ->
  on_curve x y -> path_fine fp path -> derive path = Ok (coords x y) ->
  let w := wire_psbt (wire_tx v) [] (repeat [] (length (s_ins v)) ++ repeat [] (Z.to_nat k) ++ [out_deriv c x y fp path] :: repeat [] (length (s_outs v) - S (Z.to_nat k))) in
  exists p, psbt_parse dsha garbage q (w ++ rest) = Ok (p, len w, rest) /\ ps_status p = DONE /\ tx_holds (ps_tx p) v /\ psbt_isMine derive p k = Ok true.
Proof. exact mine_claimed. Qed.
Print Assumptions C56_script_refuted.
Example C56_case : let w := wire_psbt (wire_tx ex_psbt_tx) [] [[]; []; []; [out_deriv false ex_gx ex_gy [1; 2; 3; 4] [2^31 + 84; 0; 7]]] in
  on_curve ex_gx ex_gy /\ path_fine [1; 2; 3; 4] [2^31 + 84; 0; 7] /\
  exists p, psbt_parse toy [] psbt_new w = Ok (p, len w, []) /\
    psbt_isMine (fun path => Ok (if list_eqb path [2^31 + 84; 0; 7] then coords ex_gx ex_gy else zeros 64)) p 1 = Ok true /\
    psbt_isMine (fun path => Ok (if list_eqb path [2^31 + 84; 0; 7] then coords ex_gx ex_gy else zeros 64)) p 0 = Ok false /\
    psbt_isMine (fun path => Ok (if list_eqb path [2^31 + 84; 0; 8] then coords ex_gx ex_gy else zeros 64)) p 1 = Ok false.
Proof.
  split; [vm_compute; repeat split; discriminate|]. split.
  - split; [apply bytes_check; reflexivity|]. split; [reflexivity|]. split; [repeat constructor; lia|]. split; [reflexivity|discriminate].
  - eexists. split; [vm_compute; reflexivity|]. vm_compute. auto.
Qed.
(** The number of the output is not checked. *)
Theorem C56_bounds_refuted : forall dsha garbage derive chunks p n r k, feed (psbt_parse dsha garbage) ps_status psbt_new chunks = Ok (p, n, r) -> ps_status p = DONE -> chunks <> [] ->
  ~ 0 <= k < len (t_outs (ps_tx p)) -> psbt_isMine derive p k = UB.
Proof. exact mine_bounds. Qed.
Print Assumptions C56_bounds_refuted.

(** * C67 *)
(** An object that was created and fed any bytes, cut in any way, can be destroyed, unless a parse failed. *)
Theorem C67_destroy_partial : forall dsha garbage chunks p n r, feed (psbt_parse dsha garbage) ps_status psbt_new chunks = Ok (p, n, r) -> ps_status p <> FAILED ->
  psbt_destroy p = Ok tt.
Proof. exact destroy_ok. Qed.
Print Assumptions C67_destroy_partial.
Example C67_case : let w := wire_psbt (wire_tx ex_psbt_tx) [] (ex_maps ++ [[]; []]) in
  exists p n r, feed (psbt_parse toy []) ps_status psbt_new [firstn 60 w; firstn 20 (skipn 60 w); firstn 70 (skipn 80 w)] = Ok (p, n, r) /\ ps_status p = INCOMPLETE /\ n = 150 /\
    len (t_ins (ps_tx p)) = 2 /\ psbt_destroy p = Ok tt.
Proof. do 3 eexists. split; [vm_compute; reflexivity|]. vm_compute. auto. Qed.
(** When the transaction in it is cut short or malformed but has an input or output, destroying the object follows pointers that were never set. *)
Theorem C67_failed_refuted : forall dsha garbage tb rest t n r, bytes_ok tb -> len tb < 2^31 -> plain_length (len tb) -> tx_parse tx_new tb = Ok (t, n, r) -> t_status t <> DONE ->
  t_ins t <> [] \/ t_outs t <> [] ->
  exists p k, psbt_parse dsha garbage psbt_new ([112; 115; 98; 116; 255] ++ wire_pair ([0], tb) ++ rest) = Ok (p, k, rest) /\ ps_status p = FAILED /\ psbt_destroy p = UB.
Proof. exact destroy_failed. Qed.
Print Assumptions C67_failed_refuted.
Example C67_failed_case : exists t, tx_parse tx_new (firstn 60 (wire_tx ex_psbt_tx)) = Ok (t, 60, []) /\ t_status t = INCOMPLETE /\ len (t_ins t) = 2.
Proof. eexists. split; [vm_compute; reflexivity|]. vm_compute. auto. Qed.
(** When a complete object is parsed again and the first byte is wrong, its memory is freed once more. *)
Theorem C67_reuse_refuted : forall dsha garbage chunks p n r b rest, feed (psbt_parse dsha garbage) ps_status psbt_new chunks = Ok (p, n, r) -> ps_status p = DONE -> t_ins (ps_tx p) <> [] -> b <> 112 ->
  exists p' k s, psbt_parse dsha garbage p (b :: rest) = Ok (p', k, s) /\ ps_status p' = FAILED /\ psbt_destroy p' = UB.
Proof. exact reuse_failed. Qed.
Print Assumptions C67_reuse_refuted.
(** A derivation entry with a value of less than four bytes: bytes behind it are read. *)
Theorem C67_short_refuted : forall dsha garbage q v c x y val mi mo rest, reusable dsha garbage q -> psbt_tx v -> on_curve x y -> bytes_ok val -> len val < 4 ->
  fits_maps v [] ([(6 :: sec_bytes c x y, val)] :: mi) mo ->
  psbt_parse dsha garbage q (wire_psbt (wire_tx v) [] (([(6 :: sec_bytes c x y, val)] :: mi) ++ mo) ++ rest) = UB.
Proof. exact short_derivation. Qed.
Print Assumptions C67_short_refuted.
Example C67_short_case : psbt_parse toy [] psbt_new (wire_psbt (wire_tx ex_psbt_tx) [] [[(6 :: sec_bytes false ex_gx ex_gy, [1; 2; 3])]; []; []; []]) = UB /\
  exists p n r, psbt_parse toy [] psbt_new (wire_psbt (wire_tx ex_psbt_tx) [] [[(6 :: sec_bytes false ex_gx ex_gy, [1; 2; 3; 4])]; []; []; []]) = Ok (p, n, r) /\ ps_status p = DONE.
Proof. split; [vm_compute; reflexivity|]. do 3 eexists. split; vm_compute; reflexivity. Qed.
(** 256 signatures for one input: the counter wraps and the array is indexed with -1. *)
Theorem C67_signatures_refuted : forall dsha garbage q v l m mi mo rest, reusable dsha garbage q -> psbt_tx v -> Forall2 psig_any l m -> Forall psig_ok l -> 256 <= len l ->
  fits_maps v [] (m :: mi) mo -> psbt_parse dsha garbage q (wire_psbt (wire_tx v) [] ((m :: mi) ++ mo) ++ rest) = UB.
Proof. exact many_sigs. Qed.
Print Assumptions C67_signatures_refuted.

(** * C68 *)
(** A wrong byte among the first five: refused at that byte. *)
Theorem C68_magic_partial : forall dsha garbage p pre c rest, reusable dsha garbage p -> (length pre < 5)%nat ->
  pre = firstn (length pre) [112; 115; 98; 116; 255] -> c <> nth (length pre) [112; 115; 98; 116; 255] 0 ->
  exists p' n, psbt_parse dsha garbage p (pre ++ c :: rest) = Ok (p', n, rest) /\ ps_status p' = FAILED.
Proof. exact bad_magic. Qed.
Print Assumptions C68_magic_partial.
(** The first key must be the single byte 0. *)
Theorem C68_global_partial : forall dsha garbage p k tb rest, reusable dsha garbage p -> bytes_ok k -> len k < 2^31 -> bytes_ok tb -> len tb < 2^31 -> k <> [0] ->
  exists p' n, psbt_parse dsha garbage p ([112; 115; 98; 116; 255] ++ wire_pair (k, tb) ++ rest) = Ok (p', n, rest) /\ ps_status p' = FAILED.
Proof. exact bad_global. Qed.
Print Assumptions C68_global_partial.
Example C68_global_case : exists p n, psbt_parse toy [] psbt_new ([112; 115; 98; 116; 255] ++ wire_pair ([1], wire_tx ex_psbt_tx) ++ [9]) = Ok (p, n, [9]) /\ ps_status p = FAILED /\
  exists p' n', psbt_parse toy [] psbt_new ([112; 115; 98; 116; 255] ++ wire_pair ([0], wire_tx ex_psbt_tx) ++ [0; 0; 0; 0; 0]) = Ok (p', n', []) /\ ps_status p' = DONE.
Proof. do 2 eexists. split; [vm_compute; reflexivity|]. split; [reflexivity|]. do 2 eexists. split; vm_compute; reflexivity. Qed.
(** The bytes that stand for the spent output start with a complete output. *)
Theorem C68_utxo_partial : forall dsha garbage p v global mi mo rest p' n r, reusable dsha garbage p -> psbt_tx v -> fits_maps v global mi mo ->
  psbt_parse dsha garbage p (wire_psbt (wire_tx v) global (mi ++ mo) ++ rest) = Ok (p', n, r) -> ps_status p' = DONE ->
  forall j b m, nth_error mi j = Some (([1], b) :: m) -> plain_length (len b) ->
  exists t k s, txout_parse txout_new b = Ok (t, k, s) /\ to_status t = DONE.
Proof. exact utxo_first. Qed.
Print Assumptions C68_utxo_partial.
Example C68_utxo_case : exists p n r, psbt_parse toy [] psbt_new (wire_psbt (wire_tx ex_psbt_tx) [] [[([1], removelast (wire_out ex_utxo))]; []; []; []]) = Ok (p, n, r) /\ ps_status p = FAILED /\
  exists t k s, txout_parse txout_new (removelast (wire_out ex_utxo)) = Ok (t, k, s) /\ to_status t = INCOMPLETE.
Proof. do 3 eexists. split; [vm_compute; reflexivity|]. split; [reflexivity|]. do 3 eexists. split; vm_compute; reflexivity. Qed.
(** But bytes after that output pass, and so does a second entry with the same key, which replaces the first. *)
Theorem C68_loose_refuted : forall dsha garbage q v i o1 o2 z1 z2 rest, reusable dsha garbage q -> psbt_tx v -> s_ins v = [i] -> out_ok o1 -> out_ok o2 -> bytes_ok z1 -> bytes_ok z2 ->
  len (wire_out o1 ++ z1) < 2^31 -> len (wire_out o2 ++ z2) < 2^31 -> plain_length (len (wire_out o1 ++ z1)) -> plain_length (len (wire_out o2 ++ z2)) ->
  let x := wire_psbt (wire_tx v) [] ([[([1], wire_out o1 ++ z1); ([1], wire_out o2 ++ z2)]] ++ repeat [] (length (s_outs v))) in
  exists p m, psbt_parse dsha garbage q (x ++ rest) = Ok (p, len x, rest) /\ ps_status p = DONE /\ ps_ins p = Some [m] /\ txout_holds (im_out m) o2.
Proof. exact entries_loose. Qed.
Print Assumptions C68_loose_refuted.
Example C68_loose_case : let v := {| s_version := 2; s_ins := [ex_in]; s_outs := [{| so_value := 30; so_script := [81] |}]; s_lock := 0 |} in
  let o2 := {| so_value := 2000; so_script := [82] |} in
  exists p m, psbt_parse toy [] psbt_new (wire_psbt (wire_tx v) [] [[([1], wire_out ex_utxo); ([1], wire_out o2 ++ [7; 7])]; []]) = Ok (p, 101, []) /\ ps_status p = DONE /\
    ps_ins p = Some [m] /\ to_amount (im_out m) = 2000 /\ to_amount (im_out m) <> so_value ex_utxo.
Proof. do 2 eexists. split; [vm_compute; reflexivity|]. split; [reflexivity|]. split; [reflexivity|]. split; [reflexivity|]. vm_compute. discriminate. Qed.
