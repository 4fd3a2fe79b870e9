(** Base64 text of a PSBT (C83), and text that is not base64 (C84). *)
From Coq Require Import Lia.
From Verif Require Import Base.Bytes Base.BytesFacts Model.Conversion Model.Stream Model.Script Model.Tx Model.PSBT Model.Text
  Spec.Codecs Spec.Wire Spec.Objects Spec.PSBT Spec.Text Proof.HexBin Proof.Base64 Proof.Base64Exact Proof.TextFacts
  Proof.IntVarint Proof.PsbtFacts Proof.PsbtParse Proof.PsbtEntries Proof.PsbtProps Proof.PsbtMore.
Open Scope Z_scope.

Lemma base64_no_nul : forall bs, bytes_ok bs -> no_nul (base64_text false true bs).
Proof.
  assert (D : forall d, 0 <= d < 64 -> nth (Z.to_nat d) (b64_alphabet false) 0 <> 0).
  { intros d R. apply (digit_nonzero _ d). split; auto. }
  intros bs. induction bs as [|a|a b|a b c t IH] using list3_ind; intros H.
  - constructor.
  - inversion H; subst. unfold byte_ok in *. cbn [base64_text app]. repeat (apply Forall_cons; [first [apply D; dlia | discriminate]|]). constructor.
  - inversion H as [|? ? Ha H']; subst. inversion H' as [|? ? Hb _]; subst. unfold byte_ok in *. cbn [base64_text app].
    repeat (apply Forall_cons; [first [apply D; dlia | discriminate]|]). constructor.
  - inversion H as [|? ? Ha H']; subst. inversion H' as [|? ? Hb H'']; subst. inversion H'' as [|? ? Hc Ht]; subst. unfold byte_ok in Ha, Hb, Hc. cbn [base64_text app].
    repeat (apply Forall_cons; [apply D; dlia|]). apply IH; auto.
Qed.
Lemma hexToBase64_ok : forall bs, bytes_ok bs -> bs <> [] -> hexToBase64 (hex_string bs) = Ok (base64_text false true bs).
Proof.
  intros bs B N. unfold hexToBase64. rewrite hex_string_len. replace (2 * len bs / 2) with (len bs) by dlia.
  rewrite fromHex_spec; auto. 2:{ rewrite len_zeros. pose proof (len_nonneg _ bs). lia. }
  cbn [bind fst snd]. replace (firstn (Z.to_nat (len bs)) _) with bs.
  2:{ unfold len. rewrite Nat2Z.id, firstn_app, firstn_all, Nat.sub_diag. cbn [firstn]. rewrite app_nil_r. auto. }
  destruct (toBase64_spec b64_std bs (zeros (Z.to_nat (toBase64Length (len bs) b64_std + 1))) B N) as [E L].
  { rewrite len_zeros. lia. }
  rewrite E. cbn [bind snd b64_std urlsafe nopad negb]. rewrite cstr_app by (apply base64_no_nul; auto). reflexivity.
Qed.
Lemma base64ToHex_ok : forall bs, bytes_ok bs -> bs <> [] -> base64ToHex (base64_text false true bs) = Ok (hex_string bs).
Proof.
  intros bs B N. unfold base64ToHex.
  pose proof (fromBase64Length_text b64_std bs B N) as E. cbn [b64_std urlsafe nopad negb] in E. fold b64_std in E. rewrite E. cbn [bind].
  pose proof (fromBase64_spec b64_std bs (zeros (Z.to_nat (len bs + 1))) B N ltac:(rewrite len_zeros; pose proof (len_nonneg _ bs); lia)) as F.
  cbn [b64_std urlsafe nopad negb] in F. fold b64_std in F. rewrite F. cbn [bind fst snd].
  replace (firstn (Z.to_nat (len bs)) _) with bs.
  2:{ unfold len. rewrite Nat2Z.id, firstn_app, firstn_all, Nat.sub_diag. cbn [firstn]. rewrite app_nil_r. auto. }
  rewrite toHex_spec; auto. 2:{ rewrite len_zeros. pose proof (len_nonneg _ bs). lia. }
  cbn [snd]. rewrite cstr_app by (apply hex_no_nul; auto). reflexivity.
Qed.
Lemma wire_pair_ok : forall e, pair_ok e -> bytes_ok (wire_pair e).
Proof. intros e (_ & A & B & C & D). apply bytes_ok_app. split; apply wire_bytes_ok; auto. Qed.
Lemma wire_map_ok : forall m, Forall pair_ok m -> bytes_ok (wire_map m).
Proof.
  intros m H. apply bytes_ok_app. split; [|repeat constructor; unfold byte_ok; lia]. apply flat_ok. eapply Forall_impl; [|exact H]. intros; apply wire_pair_ok; auto.
Qed.
Lemma wire_psbt_ok : forall v maps, carried v -> Forall (Forall pair_ok) maps -> bytes_ok (wire_psbt (wire_tx v) [] maps).
Proof.
  intros v maps C F. pose proof (wire_tx_ok v C) as B. destruct C as (_ & _ & _ & _ & L & _).
  unfold wire_psbt. apply bytes_ok_app. split; [repeat constructor; unfold byte_ok; lia|]. apply bytes_ok_app. split.
  - apply bytes_ok_app. cbn [fst snd]. split; apply wire_bytes_ok; auto; [repeat constructor; unfold byte_ok; lia|reflexivity].
  - apply bytes_ok_app. split; [apply wire_map_ok; constructor|]. apply flat_ok. eapply Forall_impl; [|exact F]. intros; apply wire_map_ok; auto.
Qed.
Lemma sig_maps_ok : forall sigs maps, Forall2 (Forall2 psig_pair) sigs maps -> Forall (Forall psig_ok) sigs -> Forall (Forall pair_ok) maps.
Proof.
  induction 1 as [|s m ss ms H F IH]; intros K; [constructor|]. inversion K as [|? ? K1 K2]; subst. constructor; auto. clear IH F K.
  induction H as [|g e gs es P Q IH]; [constructor|]. inversion K1 as [|? ? G1 G2]; subst. constructor; auto. apply (pair_of_sig g e P G1).
Qed.
Section Psbt.
Variables (dsha : list Z -> list Z) (garbage : list Z).
Lemma psbt_base64 : forall p q v sigs, psbt_holds p v sigs -> psbt_tx v -> Forall (Forall psig_ok) sigs ->
  Forall (fun l => len l <= 255) sigs -> reusable dsha garbage q ->
  exists maps, let w := wire_psbt (wire_tx v) [] (maps ++ repeat [] (length (s_outs v))) in
  Forall2 (Forall2 psig_pair) sigs maps /\ (len w < 2^62 -> psbt_toBase64 p = Ok (base64_text false true w) /\
  exists p', psbt_parseBase64 dsha garbage q (base64_text false true w) = Ok (p', len w) /\ ps_status p' = DONE /\ psbt_holds p' v sigs /\ only_sigs p').
Proof.
  intros p q v sigs H T S L R. destruct (psbt_round_trip dsha garbage p q v sigs H T S L R) as (maps & F & LN & SE & RT).
  exists maps. cbv zeta. set (w := wire_psbt (wire_tx v) [] (maps ++ repeat [] (length (s_outs v)))) in *. split; auto. intros LW.
  assert (B : bytes_ok w).
  { apply wire_psbt_ok; [apply T|]. apply Forall_app. split; [eapply sig_maps_ok; eauto|]. apply Forall_forall. intros m I. apply repeat_spec in I as ->. constructor. }
  assert (N : w <> []) by (unfold w, wire_psbt; discriminate).
  split.
  - unfold psbt_toBase64. rewrite LN. cbn [bind]. rewrite (to_string_hex _ w) by auto. cbn [bind]. apply hexToBase64_ok; auto.
  - destruct (RT []) as (p' & P & D & H' & O). rewrite app_nil_r in P. exists p'. split; auto.
    unfold psbt_parseBase64. rewrite base64ToHex_ok by auto. cbn [bind].
    rewrite (text_parse_ok _ _ _ _ _ w); [|apply hex_string_text; auto|rewrite hex_string_len; lia|].
    2:{ pose proof (hex_string_len w) as HL. unfold len in HL. lia. }
    rewrite P. cbn [bind fst snd]. rewrite hex_string_len. do 2 f_equal. dlia.
Qed.
(** Text that is not base64. *)
Lemma body_done : forall p st p' n r, psbt_body dsha garbage p st = Ok (p', n, r) -> ps_status p' = DONE ->
  exists k v, ps_key p' = script_assign k script_new /\ ps_value p' = script_assign v script_new.
Proof.
  intros p st p' n r H D. unfold psbt_body in H.
  repeat match type of H with
  | (let! _ := ?x in _) = Ok _ => destruct x as [?|]; [rewrite bind_ok in H; cbv beta in H|discriminate H]
  | (let '(_, _) := ?x in _) = Ok _ => destruct x
  | (if ?b then Ok (ps_end _ FAILED _, _, _) else _) = Ok _ => destruct b; [injection H as <- _ _; discriminate D|]
  | (if ?b then _ else _) = Ok _ => destruct b
  | (let x := ?a in _) = Ok _ => cbv zeta in H
  end; injection H as <- _ _.
  - eexists. eexists. split; reflexivity.
  - discriminate D.
Qed.
Lemma script_reset : forall k, settled (script_assign k script_new) -> exists l, script_assign k script_new = mkScript [] 0 l DONE 0.
Proof.
  intros k (_ & L). unfold script_assign in *. cbn [sc_len script_new] in *. change (0 <? 0) with false in *. cbn iota in *. unfold script_clear in *. cbn [sc_len] in *.
  destruct (Z.ltb_spec 0 (sc_len k)); [eexists; reflexivity|]. cbn [sc_len sc_arr] in L. pose proof (len_nonneg _ (sc_arr k)).
  exists (sc_lenLen k). assert (E : sc_arr k = []) by (destruct (sc_arr k); auto; rewrite len_cons in *; pose proof (len_nonneg _ l); lia).
  rewrite E in *. rewrite L, len_nil. reflexivity.
Qed.
Lemma reusable_clear : forall q, reusable dsha garbage q -> ps_status q = DONE /\ psbt_release q = Ok tt /\ exists a b, ps_key q = mkScript [] 0 a DONE 0 /\ ps_value q = mkScript [] 0 b DONE 0.
Proof.
  intros q R. destruct (reusable_ready dsha garbage q R) as (D & [SK SV] & RL). split; auto. split; auto.
  destruct R as [|q v global mi mo rest q' n r R V F E D']; [exists 0, 0; split; reflexivity|].
  destruct (reusable_ready dsha garbage q R) as (D0 & _ & RL0). unfold psbt_parse in E. rewrite D0 in E. destruct (psbt_start q) as [q1|]; [rewrite bind_ok in E|discriminate E].
  destruct (body_done _ _ _ _ _ E D) as (k & w & EK & EW). rewrite EK in *. rewrite EW in *.
  destruct (script_reset k SK) as (a & ->). destruct (script_reset w SV) as (b & ->). eauto.
Qed.
Lemma psbt_parse_empty : forall q, reusable dsha garbage q -> exists p', psbt_parse dsha garbage q [] = Ok (p', 0, []) /\ ps_status p' = FAILED.
Proof.
  intros q R. destruct (reusable_clear q R) as (D & RL & a & b & K & W). unfold psbt_parse. rewrite D. unfold psbt_start. rewrite RL, bind_ok. cbv zeta. rewrite bind_ok.
  rewrite K, W. unfold psbt_body. cbn [ps_parsed ps_last magic_loop ps_key ps_value]. eexists. split; reflexivity.
Qed.
Lemma psbt_refuses : forall q text, reusable dsha garbage q -> text <> [] -> no_nul text -> (~ exists bs, b64_reads text bs) ->
  exists p', psbt_parseBase64 dsha garbage q text = Ok (p', 0) /\ ps_status p' = FAILED.
Proof.
  intros q text R N NN B. destruct (length_defined text N) as (l & E). unfold psbt_parseBase64, base64ToHex. rewrite E. cbn [bind].
  destruct (fromBase64_exact text (zeros (Z.to_nat (l + 1))) l NN E ltac:(rewrite len_zeros; lia)) as [(bs & X & _)|(_ & F)]; [exfalso; eauto|].
  rewrite F. cbn [bind fst snd Z.to_nat firstn]. rewrite toHex_spec by (try constructor; rewrite len_zeros, len_nil; lia). rewrite len_nil. cbn [snd hex_string flat_map app Z.mul Z.sub Z.to_nat cstr].
  replace (cstr (zeros _)) with (@nil Z) by (symmetry; apply (cstr_app [] _); constructor). cbn [bind].
  rewrite (text_parse_ok _ _ _ _ _ []); [|constructor|reflexivity|cbn; lia].
  destruct (psbt_parse_empty q R) as (p' & P & S). rewrite P. cbn [bind fst snd]. exists p'. auto.
Qed.
(** An object that has failed says how many bytes the text has, and reads none of them. *)
Lemma psbt_failed_base64 : forall q bs, ps_status q = FAILED -> bytes_ok bs -> bs <> [] -> len bs < 2^62 ->
  psbt_parseBase64 dsha garbage q (base64_text false true bs) = Ok (q, len bs).
Proof.
  intros q bs D B N L. unfold psbt_parseBase64. rewrite base64ToHex_ok by auto. cbn [bind].
  rewrite (text_parse_ok _ _ _ _ _ bs); [|apply hex_string_text; auto|rewrite hex_string_len; lia|].
  2:{ pose proof (hex_string_len bs) as HL. unfold len in HL. lia. }
  unfold psbt_parse. rewrite D. cbn [bind fst snd]. rewrite hex_string_len. do 2 f_equal. dlia.
Qed.
End Psbt.

(** * Text that is not base64 *)
Lemma reads_fun : forall text bs, b64_reads text bs -> forall bs', b64_reads text bs' -> bs = bs'.
Proof.
  induction 1; intros bs' B; inversion B; subst; try (exfalso; eapply digit_not_pad; eassumption);
    repeat match goal with A : b64_digit ?c ?d, B : b64_digit ?c ?e |- _ => rewrite (digit_fun _ _ _ A B) in *; clear A end; try reflexivity.
  f_equal. auto.
Qed.
Lemma alphabet_b64 : forall d, 0 <= d < 64 -> b64_digit (nth (Z.to_nat d) (b64_alphabet false) 0) d.
Proof. intros d R. split; auto. Qed.
Lemma be3 : forall a b c, byte_ok a -> byte_ok b -> byte_ok c -> be_bytes 3 (a * 65536 + b * 256 + c) = [a; b; c].
Proof. unfold byte_ok. intros. unfold be_bytes. cbn [le_bytes rev app]. f_equal; [dlia|]. f_equal; [dlia|]. f_equal. dlia. Qed.
Lemma be2 : forall a b, byte_ok a -> byte_ok b -> be_bytes 2 (a * 256 + b) = [a; b].
Proof. unfold byte_ok. intros. unfold be_bytes. cbn [le_bytes rev app]. f_equal; [dlia|]. f_equal. dlia. Qed.
Lemma text_reads : forall bs rest, bytes_ok bs -> len bs mod 3 <> 0 \/ rest = [] -> b64_reads (base64_text false true bs ++ rest) bs.
Proof.
  intros bs. induction bs as [|a|a b|a b c t IH] using list3_ind; intros rest H M.
  - destruct M as [M| ->]; [exfalso; apply M; reflexivity|constructor].
  - inversion H; subst. unfold byte_ok in *. cbn [base64_text app]. replace [a] with [(a / 4 * 64 + a mod 4 * 16) / 16] by (f_equal; dlia).
    apply br_two; apply alphabet_b64; dlia.
  - inversion H as [|? ? Ha H']; subst. inversion H' as [|? ? Hb _]; subst. cbn [base64_text app]. rewrite <- (be2 a b) by auto. unfold byte_ok in *.
    replace (a * 256 + b) with (((a / 4 * 64 + (a mod 4 * 16 + b / 16)) * 64 + b mod 16 * 4) / 4) by dlia.
    apply br_three; apply alphabet_b64; dlia.
  - inversion H as [|? ? Ha H']; subst. inversion H' as [|? ? Hb H'']; subst. inversion H'' as [|? ? Hc Ht]; subst. cbn [base64_text app].
    change (a :: b :: c :: t) with ([a; b; c] ++ t). rewrite <- (be3 a b c) by auto. unfold byte_ok in Ha, Hb, Hc.
    replace (a * 65536 + b * 256 + c) with (((a / 4 * 64 + (a mod 4 * 16 + b / 16)) * 64 + (b mod 16 * 4 + c / 64)) * 64 + c mod 64) by dlia.
    apply br_four; try (apply alphabet_b64; dlia). apply IH; auto. destruct M as [M|M]; auto. left. rewrite !len_cons in M. pose proof (len_nonneg _ t).
    replace ((1 + (1 + (1 + len t))) mod 3) with (len t mod 3) in M by dlia. auto.
Qed.
Lemma decodes : forall text bs out l, no_nul text -> b64_reads text bs -> fromBase64Length b64_std text = Ok l -> l <= len out -> len bs <= len out ->
  fromBase64 b64_std text out = Ok (len bs, bs ++ zeros (length out - length bs)).
Proof.
  intros text bs out l N B E L LB. destruct (fromBase64_exact text out l N E L) as [(b & X & _ & F)|(X & _)].
  - rewrite (reads_fun _ _ B _ X). auto.
  - specialize (X bs B). lia.
Qed.
Lemma trailing : forall bs rest out l, bytes_ok bs -> len bs mod 3 <> 0 -> no_nul rest ->
  fromBase64Length b64_std (base64_text false true bs ++ rest) = Ok l -> l <= len out -> len bs <= len out ->
  fromBase64 b64_std (base64_text false true bs ++ rest) out = Ok (len bs, bs ++ zeros (length out - length bs)).
Proof.
  intros bs rest out l B M N E L LB. apply (decodes _ _ _ l); auto; [|apply text_reads; auto]. apply Forall_app. split; auto. apply base64_no_nul. auto.
Qed.
Lemma trailing_hex : forall bs rest, bytes_ok bs -> len bs mod 3 <> 0 -> no_nul rest -> len rest mod 4 = 0 ->
  base64ToHex (base64_text false true bs ++ rest) = Ok (hex_string bs).
Proof.
  intros bs rest B M N R. set (text := base64_text false true bs ++ rest).
  assert (LT : len text = toBase64Length (len bs) b64_std + len rest) by (unfold text; rewrite len_app, base64_text_len; reflexivity).
  pose proof (len_nonneg _ bs). pose proof (len_nonneg _ rest).
  assert (T4 : len text mod 4 = 0 /\ len bs <= len text / 4 * 3 - 1 /\ 4 <= len text).
  { rewrite LT. unfold toBase64Length. cbn [nopad b64_std]. destruct (Z.eqb_spec (len bs mod 3) 0); [congruence|].
    assert (1 <= len bs mod 3 <= 2) by (pose proof (Z.mod_pos_bound (len bs) 3 ltac:(lia)); lia). dlia. }
  assert (NE : text <> []) by (intros E; rewrite E, len_nil in T4; lia).
  destruct (length_defined text NE) as (l & E).
  assert (LL : len text / 4 * 3 - 2 <= l).
  { revert E. unfold fromBase64Length. cbn [nopad b64_std negb]. rewrite (proj1 T4). cbn [Z.eqb negb andb].
    destruct (aget text (len text - 1)) as [x|]; [|discriminate]. destruct (aget text (len text - 2)) as [y|]; [|discriminate]. cbn [bind].
    intros E. injection E as <-. destruct (x =? 61), (y =? 61); lia. }
  unfold base64ToHex. fold text. rewrite E. cbn [bind].
  rewrite (decodes text bs _ l); [|apply Forall_app; split; [apply base64_no_nul; auto|auto]|apply text_reads; auto|auto|rewrite len_zeros; lia|rewrite len_zeros; lia].
  cbn [bind fst snd]. replace (firstn (Z.to_nat (len bs)) _) with bs.
  2:{ unfold len. rewrite Nat2Z.id, firstn_app, firstn_all, Nat.sub_diag. cbn [firstn]. rewrite app_nil_r. auto. }
  rewrite toHex_spec; auto. 2:{ rewrite len_zeros. lia. }
  cbn [snd]. rewrite cstr_app by (apply hex_no_nul; auto). reflexivity.
Qed.
Lemma last_group : forall d0 d1 x out, 0 <= d0 < 64 -> 0 <= d1 < 64 -> x <> 0 -> 2 <= len out ->
  let ch := fun d => nth (Z.to_nat d) (b64_alphabet false) 0 in
  fromBase64 b64_std [ch d0; ch d1; 61; x] out = Ok (1, (d0 * 64 + d1) / 16 :: zeros (length out - 1)).
Proof.
  intros d0 d1 x out R0 R1 NX L ch.
  assert (NN : no_nul [ch d0; ch d1; 61; x]).
  { repeat apply Forall_cons; try discriminate; auto; eapply digit_nonzero; apply alphabet_b64; auto. }
  assert (E : exists l, fromBase64Length b64_std [ch d0; ch d1; 61; x] = Ok l /\ l <= 2).
  { unfold fromBase64Length. cbn [nopad b64_std negb]. change (len [ch d0; ch d1; 61; x]) with 4. change (4 mod 4 =? 0) with true. cbn [negb andb].
    change (aget [ch d0; ch d1; 61; x] (4 - 1)) with (Ok x). change (aget [ch d0; ch d1; 61; x] (4 - 2)) with (Ok 61). cbn [bind]. eexists. split; [reflexivity|].
    change (61 =? 61) with true. destruct (x =? 61); vm_compute; congruence. }
  destruct E as (l & E & EL). rewrite (decodes _ [(d0 * 64 + d1) / 16] _ l); auto; [apply br_two; apply alphabet_b64; auto|lia|]. rewrite len_cons, len_nil. lia.
Qed.
Lemma base64_exact : forall text out l, no_nul text -> fromBase64Length b64_std text = Ok l -> l <= len out ->
  (forall bs, b64_reads text bs -> len bs <= len out -> fromBase64 b64_std text out = Ok (len bs, bs ++ zeros (length out - length bs))) /\
  ((forall bs, b64_reads text bs -> len out < len bs) -> fromBase64 b64_std text out = Ok (0, zeros (length out))).
Proof.
  intros text out l N E L. split.
  - intros bs B LB. eapply decodes; eauto.
  - intros H. destruct (fromBase64_exact text out l N E L) as [(b & X & LB & _)|(_ & F)]; auto. specialize (H b X). lia.
Qed.
