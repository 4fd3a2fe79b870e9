(** The fee of a PSBT for all amounts. *)
From Coq Require Import Lia.
From Verif Require Import Base.Bytes Base.BytesFacts Spec.Codecs Spec.Wire Spec.Objects Spec.PSBT Model.Stream Model.Script Model.Tx Model.PSBT
  Proof.TxParse Proof.PsbtFacts Proof.PsbtInv Proof.PsbtProps.
Open Scope Z_scope.

Lemma input_mod : forall ins pre p, ps_ins p = Some (pre ++ ins) -> forall acc, 0 <= acc < 2^64 ->
  input_amount (length ins) p (len pre) acc =
  Ok (if existsb (fun m => to_amount (im_out m) =? 0) ins then None else Some ((acc + zsum (map (fun m => to_amount (im_out m)) ins)) mod 2^64)).
Proof.
  induction ins as [|m ins IH]; intros pre p E acc A.
  - cbn [length input_amount existsb map]. change (zsum []) with 0. rewrite Z.add_0_r, Z.mod_small by lia. reflexivity.
  - cbn [length input_amount existsb map]. rewrite E. unfold at_ptr. pose proof (len_nonneg _ pre). destruct (Z.ltb_spec (len pre) 0); [lia|].
    unfold len at 1. rewrite Nat2Z.id, nth_error_app2, Nat.sub_diag by lia. cbn [nth_error]. rewrite bind_ok. cbv beta.
    destruct (Z.eqb_spec (to_amount (im_out m)) 0) as [Z0|NZ]; [reflexivity|]. cbn [orb]. rewrite zsum_cons.
    specialize (IH (pre ++ [m]) p). rewrite <- app_assoc in IH. specialize (IH E (u64 (acc + to_amount (im_out m))) ltac:(unfold u64; dlia)).
    rewrite len_app in IH. change (len [m]) with 1 in IH. rewrite IH. unfold u64. rewrite Zplus_mod_idemp_l, Z.add_assoc. reflexivity.
Qed.
Lemma unknown_or_zero l : existsb (fun a => a =? 0) (map amount0 l) = negb (all_worth l).
Proof.
  induction l as [|a l IH]; [reflexivity|]. cbn [map existsb]. unfold all_worth in *. cbn [forallb]. rewrite IH, Bool.negb_andb. f_equal.
  destruct a as [a|]; cbn [amount0]; [rewrite Bool.negb_involutive|]; reflexivity.
Qed.
Lemma psbt_fee_exact dsha garbage v global mi mo rest p n r amounts : psbt_tx v -> fits_maps v global mi mo -> inputs_tell dsha (s_ins v) mi amounts ->
  psbt_parse dsha garbage psbt_new (wire_psbt (wire_tx v) global (mi ++ mo) ++ rest) = Ok (p, n, r) -> ps_status p = DONE ->
  psbt_fee p = Ok (if all_worth amounts then Z.max 0 (total (known_amounts amounts) mod 2^64 - total (map so_value (s_outs v)) mod 2^64) else 0).
Proof.
  intros V F T E D. pose proof (parsed_amounts _ _ _ _ _ _ _ _ _ _ _ V F T E D) as (TX & ins & EI & L & M & NN).
  unfold psbt_fee. pose proof (input_mod ins [] p EI 0 ltac:(lia)) as H. change (len (@nil inmeta)) with 0 in H. rewrite <- L, H, bind_ok. cbv beta.
  rewrite (existsb_map' (fun m => to_amount (im_out m)) (fun a => a =? 0)), M, unknown_or_zero. destruct (all_worth amounts); cbn [negb]; [|reflexivity].
  cbv zeta. unfold output_amount. rewrite output_mod by lia. rewrite !Z.add_0_l, TX, out_amounts, known_sum.
  change (zsum (map so_value (s_outs v))) with (total (map so_value (s_outs v))).
  set (a := total (known_amounts amounts) mod 2^64). set (b := total (map so_value (s_outs v)) mod 2^64).
  assert (A : 0 <= a < 2^64) by (apply Z.mod_pos_bound; reflexivity). assert (B : 0 <= b < 2^64) by (apply Z.mod_pos_bound; reflexivity).
  destruct (Z.ltb_spec a b); f_equal; [lia|]. rewrite u64_id by lia. lia.
Qed.
