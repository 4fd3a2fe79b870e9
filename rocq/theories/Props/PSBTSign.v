(** C76-C78: signing of partially signed transactions by a wallet (PSBT::sign).
    [hk_num root] and [hk_chain root] are the secret and the chain code of the wallet, [dsha], [hash160] and [hmac512] the
    hash functions (any that give 32, 20 and 64 bytes), [K] and [H] the constants of SHA-256 in the standard, [garbage]
    what lies on the stack, [rz], [rzs] and [rks] the random numbers drawn. *)
From Coq Require Import Lia.
From Verif Require Import Base.Bytes Base.BytesFacts Spec.Bignum Spec.Codecs Spec.Hash Spec.Wire Spec.Objects Spec.Keys Spec.HD Spec.Scalar Spec.Signature Spec.Point Spec.Sighash Spec.Curve Spec.Schemes Spec.PSBT Spec.PSBTSign
  Model.Stream Model.Script Model.Tx Model.Signature Model.Bignum Model.Point Model.Hash Model.Sign Model.Networks Model.Keys Model.HD Model.PSBT Model.PSBTSign
  Proof.ScriptFacts Proof.TxParse Proof.HashInst Proof.HashShape Proof.HDReal Proof.CurveFacts Proof.EcTable Proof.SignExample Proof.SchemeCases Proof.PsbtSign Proof.PsbtSignReal Proof.PsbtSignMore Proof.PsbtKnows.
Open Scope Z_scope.

(** ** Examples: a wallet with the secret 1, whose public key is the generator, and a transaction with two inputs *)
Definition ex_root : hdpriv := mkHk one (zeros 32) 0 (zeros 4) 0 Mainnet P2WPKH (zeros 4) DONE 0.
Definition ex_tx : s_tx :=
  {| s_version := 2; s_ins := [{| si_prev := repeat 7 32; si_vout := 1; si_sig := []; si_seq := 7; si_wit := [] |};
                               {| si_prev := repeat 8 32; si_vout := 5; si_sig := []; si_seq := 7; si_wit := [] |}];
     s_outs := [{| so_value := 300; so_script := [81; 81] |}]; s_lock := 0 |}.
(** Entries with the fingerprint [fp]: the wallet's key; the same with another path; another key. *)
Definition ex_mine (fp path : list Z) : s_deriv := {| dv_x := gen_x; dv_y := gen_y; dv_fp := fp; dv_path := path |}.
Definition ex_other (fp : list Z) : s_deriv := {| dv_x := gen_x; dv_y := field_prime - gen_y; dv_fp := fp; dv_path := [] |}.
Definition ex_input (out : s_txout) (l : list s_deriv) : s_input := {| sp_out := out; sp_redeem := []; sp_witness := []; sp_ders := l; sp_sigs := [] |}.
Definition ex_none : s_txout := {| so_value := 0; so_script := [] |}.
(** An object that knows the entries [l] and [l'] of the two inputs, and the output that the first one spends. *)
Definition ex_der (e : s_deriv) : pderiv := mkDer (mkPt (coords (dv_x e) (dv_y e)) true DONE 0) (dv_fp e) (dv_path e) true.
Definition ex_meta (o : s_txout) (l : list s_deriv) : inmeta := mkInMeta (mkTxout [] (so_value o) (parsed_script (so_script o)) DONE 0) (map ex_der l) (parsed_script []) (parsed_script []) [].
Definition ex_object (o : s_txout) (l l' : list s_deriv) : psbt :=
  mkPsbt script_new script_new 0 0 (parsed_tx ex_tx) (Some [ex_meta o l; ex_meta ex_none l']) (Some [om_new]) DONE 0.
Lemma ex_tx_ok : psbt_tx ex_tx.
Proof.
  split; [|discriminate].
  assert (B : forall n b, byte_ok b -> bytes_ok (repeat b n)) by (intros; apply Forall_forall; intros x I; apply repeat_spec in I as ->; auto).
  unfold carried, tx_ok, ex_tx. cbn [s_version s_ins s_outs s_lock].
  repeat match goal with
         | |- _ /\ _ => split
         | |- Forall _ (_ :: _) => constructor
         | |- Forall _ [] => constructor
         | |- Forall bytes_ok _ => constructor
         | |- in_ok _ => unfold in_ok; cbn [si_prev si_vout si_sig si_seq]
         | |- out_ok _ => unfold out_ok; cbn [so_value so_script]
         | |- wit_ok _ => unfold wit_ok; cbn [si_wit]
         | |- bytes_ok (repeat _ _) => apply B; unfold byte_ok; lia
         | |- bytes_ok _ => repeat constructor; unfold byte_ok; lia
         | |- plain_length _ => unfold plain_length
         | |- ~ _ => vm_compute; intros [? ?]; congruence
         | |- _ => vm_compute; solve [reflexivity | discriminate]
         end.
Qed.
Lemma ex_curve : on_curve gen_x gen_y /\ on_curve gen_x (field_prime - gen_y).
Proof. split; [exact gen_point|exact (ec_neg_point gen gen_point)]. Qed.
Lemma ex_knows : forall o l l', bytes_ok (so_script o) -> len (so_script o) < 2^31 -> 0 <= so_value o < 2^64 ->
  Forall (fun e => on_curve (dv_x e) (dv_y e) /\ Forall (fun w => 0 <= w < 2^32) (dv_path e)) (l ++ l') ->
  psbt_knows (ex_object o l l') ex_tx [ex_input o l; ex_input ex_none l'].
Proof.
  intros o l l' B L V F. destruct ex_tx_ok as ((TO & WO & _) & _). apply Forall_app in F as [F F'].
  assert (D : forall l, Forall (fun e => on_curve (dv_x e) (dv_y e) /\ Forall (fun w => 0 <= w < 2^32) (dv_path e)) l -> Forall2 deriv_holds (map ex_der l) l).
  { clear. intros l F. induction F as [|e l (O & W) F IH]; [constructor|]. cbn [map]. constructor; [|exact IH]. repeat split; auto; apply O. }
  split; [apply parsed_tx_holds; auto|]. split; [exists [om_new]; split; reflexivity|].
  eexists. split; [reflexivity|]. split; [reflexivity|].
  assert (E : script_holds (parsed_script []) []) by (repeat split; constructor).
  constructor; [|constructor; [|constructor]]; unfold input_holds; cbn [ex_meta ex_input im_out im_redeem im_witness im_ders im_sigs sp_out sp_redeem sp_witness sp_ders sp_sigs].
  - split; [split; [reflexivity|]; split; [exact V|]; repeat split; auto|]. split; [exact E|]. split; [exact E|]. split; [apply D; exact F|constructor].
  - split; [split; [reflexivity|]; split; [cbn [ex_none so_value]; lia|exact E]|]. split; [exact E|]. split; [exact E|]. split; [apply D; exact F'|constructor].
Qed.
Lemma ex_secret : forall fp hmac512, has_secret hmac512 fp (hk_num ex_root) (hk_chain ex_root) (ex_mine fp []) one.
Proof. intros fp hmac512. split; [reflexivity|]. split; [exists (zeros 32); reflexivity|]. rewrite (proj2 one_scalar), gen_1. reflexivity. Qed.
Lemma ex_not_secret : forall fp hmac512 d, ~ has_secret hmac512 fp (hk_num ex_root) (hk_chain ex_root) (ex_other fp) d.
Proof.
  intros fp hmac512 d (_ & (c & E) & M). cbn [ex_other dv_path bip32_derive ex_root hk_num] in E. injection E as <- _. rewrite (proj2 one_scalar), gen_1 in M.
  cbn [ex_other dv_x dv_y] in M. injection M as M. revert M. vm_compute. discriminate.
Qed.
Lemma ex_signable : forall hash160 hmac512 us, Forall (fun e => dv_path e = []) (entries us) -> signable hash160 hmac512 (hk_num ex_root) (hk_chain ex_root) us.
Proof.
  intros hash160 hmac512 us F. assert (G : Forall (fun e => dv_path e = []) (of_wallet (wallet_fp hash160 (hk_num ex_root)) (entries us))).
  { apply Forall_forall. intros e I. apply filter_In in I as [I _]. rewrite Forall_forall in F. auto. }
  split; [|eapply Forall_impl; [|exact G]; intros e ->; discriminate].
  unfold paths_reach, first_part. destruct (of_wallet _ _) as [|e l] eqn:E; [constructor|]. apply Forall_cons_iff in G as [E0 _]. rewrite E0. cbn [hardened_part length].
  apply Forall_forall. intros. lia.
Qed.

Lemma of_mine : forall fp path l, of_wallet fp (ex_mine fp path :: l) = ex_mine fp path :: of_wallet fp l.
Proof. intros. unfold of_wallet. cbn [filter ex_mine dv_fp]. destruct (list_eq_dec Z.eq_dec fp fp); [reflexivity|contradiction]. Qed.

Lemma signs_nothing : forall own by_ o gs, signatures own by_ (sp_ders (ex_input o [])) gs -> gs = [].
Proof. intros own by_ o gs S. inversion S. reflexivity. Qed.
Lemma signs_second : forall (own : s_deriv -> Prop) by_ o a b gs, signatures own by_ (sp_ders (ex_input o [a; b])) gs -> ~ own a -> own b -> exists g, gs = [g] /\ by_ b g.
Proof.
  intros own by_ o a b gs S NA B. inversion S as [|e' l' x NO T|e' g' l' x O Y T]; subst; [|contradiction].
  inversion T as [|e' l' x NO' T'|e' g' l' x O Y T']; subst; [contradiction|]. inversion T'; subst. eauto.
Qed.
Lemma wpkh_hash : forall dsha hash160 v idx i amount h l sec, length h = 20%nat ->
  input_hash dsha hash160 v idx i (ex_input {| so_value := amount; so_script := 0 :: 20 :: h |} l) sec = dsha (bip143_preimage dsha v idx i (key_code (hash160 sec)) amount 1).
Proof.
  intros dsha hash160 v idx i amount h l sec L. unfold input_hash. cbn [ex_input sp_witness sp_redeem sp_out so_script so_value]. unfold is_wpkh.
  assert (L20 : (len h =? 20) = true) by (unfold len; rewrite L; reflexivity). rewrite L20. reflexivity.
Qed.

Lemma pair_small : forall e, forallb (fun b => (0 <=? b) && (b <? 256)) (fst e ++ snd e) = true -> negb (len (fst e) =? 0) && (len (fst e ++ snd e) <? 2^31) = true -> pair_ok e.
Proof.
  intros [k v] B L. assert (X : bytes_ok (k ++ v)) by (apply Forall_forall; intros b I; rewrite forallb_forall in B; specialize (B b I); unfold byte_ok; lia).
  apply bytes_ok_app in X as [B1 B2]. cbn [fst snd] in *. rewrite len_app in L. pose proof (len_nonneg _ k). pose proof (len_nonneg _ v).
  split; [intros E; cbn [fst] in E; rewrite E in L; discriminate|]. cbn [fst snd]. repeat split; auto; lia.
Qed.

(** * C76 *)
(** For each input the wallet adds one signature for each entry whose key it has, in order, and nothing else: made with
    the BIP32 key of the path, of the hash of BIP 143 or of the legacy one, valid for the entry's key, with low s. The number
    returned is the number of signatures modulo 256. Missing: paths shorter than the hardened part of the first one, paths
    without a BIP32 key (a chance of about 2^-127), more than 255 entries or signatures for an input. *)
Theorem C76_sign_partial : forall K H dsha hash160 hmac512 garbage rz rzs rks root v,
  fips_constants fips256 K H -> hash_sizes dsha hash160 hmac512 -> draws rz rzs rks -> is_scalar (hk_num root) -> 1 + len (s_ins v) + len (s_outs v) <= 255 ->
  forall p us, psbt_knows p v us -> room_for_sigs us -> signable hash160 hmac512 (hk_num root) (hk_chain root) us ->
  exists p' gss, psbt_sign_code dsha garbage hmac512 hash160 rz rzs rks p root = Ok (p', len (concat gss) mod 256) /\
    all_signed dsha hash160 (rfc2104 (fips_hash fips256 K H) 64) hmac512 (hk_num root) (hk_chain root) v us gss /\
    psbt_knows p' v (with_sigs us gss) /\ exists ins, p' = ps_set_metas p (Some ins, ps_outs p).
Proof. exact flat_sign. Qed.
Print Assumptions C76_sign_partial.
(** What the object knows after a parse is what the entries in the bytes tell. *)
Theorem C76_parsed : forall dsha garbage q v global mi mo us rest p n r, reusable dsha garbage q -> psbt_tx v -> fits_maps v global mi mo -> maps_tell dsha (s_ins v) mi us ->
  psbt_parse dsha garbage q (wire_psbt (wire_tx v) global (mi ++ mo) ++ rest) = Ok (p, n, r) -> ps_status p = DONE -> psbt_knows p v us.
Proof. exact parsed_knows. Qed.
Print Assumptions C76_parsed.
(** From bytes to bytes: parse, sign, serialize. The signatures that were there and those of the wallet are written. *)
Theorem C76_written_partial : forall K H dsha hash160 hmac512 garbage rz rzs rks root v,
  fips_constants fips256 K H -> hash_sizes dsha hash160 hmac512 -> draws rz rzs rks -> is_scalar (hk_num root) ->
  forall q global mi mo us rest p n r, reusable dsha garbage q -> psbt_tx v -> fits_maps v global mi mo -> maps_tell dsha (s_ins v) mi us ->
  psbt_parse dsha garbage q (wire_psbt (wire_tx v) global (mi ++ mo) ++ rest) = Ok (p, n, r) -> ps_status p = DONE ->
  room_for_sigs us -> signable hash160 hmac512 (hk_num root) (hk_chain root) us ->
  exists p' m gss maps, psbt_sign_code dsha garbage hmac512 hash160 rz rzs rks p root = Ok (p', m) /\
    all_signed dsha hash160 (rfc2104 (fips_hash fips256 K H) 64) hmac512 (hk_num root) (hk_chain root) v us gss /\
    Forall2 (Forall2 psig_pair) (map sp_sigs (with_sigs us gss)) maps /\
    let w := wire_psbt (wire_tx v) [] (maps ++ repeat [] (length (s_outs v))) in
    psbt_length p' = Ok (len w) /\ serialize (psbt_to_stream p') (length w) 0 = Ok (len w, w).
Proof. exact flat_written. Qed.
Print Assumptions C76_written_partial.
(** A path of the wallet that is shorter than the hardened part of the first one: sign reads memory past its end. *)
Theorem C76_paths_refuted : forall K H dsha hash160 hmac512 garbage rz rzs rks root v,
  fips_constants fips256 K H -> hash_sizes dsha hash160 hmac512 -> draws rz rzs rks -> is_scalar (hk_num root) -> 1 + len (s_ins v) + len (s_outs v) <= 255 ->
  forall p us, psbt_knows p v us -> room_for_sigs us -> ~ paths_reach (wallet_fp hash160 (hk_num root)) (entries us) ->
  psbt_sign_code dsha garbage hmac512 hash160 rz rzs rks p root = UB.
Proof. exact flat_short. Qed.
Print Assumptions C76_paths_refuted.
(** After 256 signatures the number returned is 0, as if there was nothing to sign. *)
Theorem C76_count_refuted : forall K H dsha hash160 hmac512 garbage rz rzs rks root v,
  fips_constants fips256 K H -> hash_sizes dsha hash160 hmac512 -> draws rz rzs rks -> is_scalar (hk_num root) -> 1 + len (s_ins v) + len (s_outs v) <= 255 ->
  forall p us, psbt_knows p v us -> room_for_sigs us -> signable hash160 hmac512 (hk_num root) (hk_chain root) us ->
  Forall (fun e => exists d, has_secret hmac512 (wallet_fp hash160 (hk_num root)) (hk_num root) (hk_chain root) e d) (entries us) -> len (entries us) = 256 ->
  exists p' gss, psbt_sign_code dsha garbage hmac512 hash160 rz rzs rks p root = Ok (p', 0) /\ psbt_knows p' v (with_sigs us gss) /\ len (concat gss) = 256.
Proof. exact flat_count. Qed.
Print Assumptions C76_count_refuted.
(** The hash functions of the library have these sizes. *)
Example C76_hashes : hash_sizes doubleSha hash160 sha512Hmac /\ fips_constants fips256 K256 H256 /\ is_scalar (hk_num ex_root).
Proof. split; [split; [exact doubleSha_word|split; [exact hash160_shape|exact hmac512_shape]]|]. split; [exact constants256|exact (proj1 one_scalar)]. Qed.
(** With them: the first input spends a P2WPKH output of the wallet's key and has an entry for it and one for another
    key; the second has no entries. One signature is made, with the secret 1, of the BIP 143 hash with the amount 5000. *)
Example C76_case : forall garbage rz rzs rks, draws rz rzs rks ->
  let fp := wallet_fp hash160 (hk_num ex_root) in
  let out := {| so_value := 5000; so_script := 0 :: 20 :: hash160 (sec_bytes true gen_x gen_y) |} in
  let l := [ex_other fp; ex_mine fp []] in
  exists p' g, psbt_sign_code doubleSha garbage sha512Hmac hash160 rz rzs rks (ex_object out l []) ex_root = Ok (p', 1) /\
    psbt_knows p' ex_tx [add_sigs (ex_input out l) [g]; ex_input ex_none []] /\
    signed_with (rfc2104 (fips_hash fips256 K256 H256) 64) one
      (doubleSha (bip143_preimage doubleSha ex_tx 0 (hd {| si_prev := []; si_vout := 0; si_sig := []; si_seq := 0; si_wit := [] |} (s_ins ex_tx)) (key_code (hash160 (sec_bytes true gen_x gen_y))) 5000 1))
      gen_x gen_y (g_r g) (g_s g).
Proof.
  intros garbage rz rzs rks D fp out l. destruct C76_hashes as (HS & CC & SR). pose proof (hash160_shape (sec_bytes true gen_x gen_y)) as (HL & HB).
  destruct (C76_sign_partial K256 H256 doubleSha hash160 sha512Hmac garbage rz rzs rks ex_root ex_tx CC HS D SR ltac:(discriminate) (ex_object out l []) [ex_input out l; ex_input ex_none []]) as (p' & gss & E & (L & A) & KN & _).
  - apply ex_knows; unfold out; cbn [so_script so_value].
    + constructor; [unfold byte_ok; lia|constructor; [unfold byte_ok; lia|exact HB]].
    + rewrite !len_cons. unfold len. rewrite HL. reflexivity.
    + lia.
    + constructor; [split; [exact (proj2 ex_curve)|constructor]|constructor; [split; [exact (proj1 ex_curve)|constructor]|constructor]].
  - constructor; [|constructor; [|constructor]]; unfold len; cbn [ex_input sp_sigs sp_ders length l]; lia.
  - apply ex_signable. constructor; [reflexivity|constructor; [reflexivity|constructor]].
  - destruct gss as [|g1 [|g2 [|]]]; try discriminate L. pose proof (A 0%nat _ _ _ eq_refl eq_refl eq_refl) as A1. pose proof (A 1%nat _ _ _ eq_refl eq_refl eq_refl) as A2.
    apply signs_nothing in A2. destruct (signs_second _ _ _ _ _ _ A1) as (g & EG & _ & _ & _ & d & HD & SW); [intros (d & O); exact (ex_not_secret fp _ _ O)|exists one; apply ex_secret|]. subst g1.
    unfold out in SW. rewrite (secret_fun _ _ _ _ _ _ _ HD (ex_secret fp _)), wpkh_hash in SW by exact HL. subst g2.
    exists p', g. split; [exact E|]. split; [exact KN|exact SW].
Qed.
(** The path 0' first, then the empty path. *)
Example C76_paths_case : forall fp, ~ paths_reach fp [ex_mine fp [2^31]; ex_mine fp []] /\ Forall (fun e => on_curve (dv_x e) (dv_y e) /\ Forall (fun w => 0 <= w < 2^32) (dv_path e)) [ex_mine fp [2^31]; ex_mine fp []].
Proof.
  intros fp. split.
  - unfold paths_reach, first_part. rewrite !of_mine. intros F. apply Forall_inv_tail, Forall_inv in F. cbn [ex_mine dv_path length] in F.
    change (hardened_part [2^31]) with [2^31] in F. cbn [length] in F. lia.
  - constructor; [split; [exact (proj1 ex_curve)|constructor; [lia|constructor]]|constructor; [split; [exact (proj1 ex_curve)|constructor]|constructor]].
Qed.
(** Two inputs with 128 entries each. *)
Example C76_count_case : forall fp hmac512, let l := repeat (ex_mine fp []) (Z.to_nat 128) in
  len (entries [ex_input ex_none l; ex_input ex_none l]) = 256 /\ room_for_sigs [ex_input ex_none l; ex_input ex_none l] /\
  Forall (fun e => exists d, has_secret hmac512 fp (hk_num ex_root) (hk_chain ex_root) e d) (entries [ex_input ex_none l; ex_input ex_none l]) /\
  psbt_knows (ex_object ex_none l l) ex_tx [ex_input ex_none l; ex_input ex_none l].
Proof.
  intros fp hmac512 l. split; [unfold entries, len; cbn [flat_map ex_input sp_ders]; rewrite app_nil_r, app_length; unfold l; rewrite repeat_length; reflexivity|]. split; [constructor; [|constructor; [|constructor]]; cbn [ex_input sp_sigs sp_ders]; unfold l, len; rewrite repeat_length; cbn [length]; lia|]. split.
  - apply Forall_forall. intros e I. unfold entries in I. cbn [flat_map ex_input sp_ders] in I. rewrite app_nil_r in I. assert (X : e = ex_mine fp []) by (apply in_app_iff in I as [I|I]; apply repeat_spec in I; exact I).
    rewrite X. exists one. apply ex_secret.
  - apply ex_knows; cbn [ex_none so_value so_script]; [constructor|reflexivity|lia|]. apply Forall_forall. intros e I. assert (X : e = ex_mine fp []) by (apply in_app_iff in I as [I|I]; apply repeat_spec in I; exact I).
    rewrite X. split; [apply ex_curve|constructor].
Qed.

(** * C77 *)
(** The scripts are not compared with the output that is spent: whatever its script is, the signatures are the same if a
    redeem script or a witness script is given. *)
Theorem C77_scripts_refuted : forall K H dsha hash160 hmac512 garbage rz rzs rks root v,
  fips_constants fips256 K H -> hash_sizes dsha hash160 hmac512 -> draws rz rzs rks -> is_scalar (hk_num root) -> 1 + len (s_ins v) + len (s_outs v) <= 255 ->
  forall rz' rzs' rks' p p' us us', draws rz' rzs' rks' -> psbt_knows p v us -> psbt_knows p' v us' ->
  Forall2 same_for_signing us us' -> room_for_sigs us -> room_for_sigs us' -> signable hash160 hmac512 (hk_num root) (hk_chain root) us ->
  exists q q' gss n, psbt_sign_code dsha garbage hmac512 hash160 rz rzs rks p root = Ok (q, n) /\ psbt_sign_code dsha garbage hmac512 hash160 rz' rzs' rks' p' root = Ok (q', n) /\
    all_signed dsha hash160 (rfc2104 (fips_hash fips256 K H) 64) hmac512 (hk_num root) (hk_chain root) v us gss /\ psbt_knows q v (with_sigs us gss) /\ psbt_knows q' v (with_sigs us' gss).
Proof. exact flat_unrelated. Qed.
Print Assumptions C77_scripts_refuted.
(** An input of which nothing is known but a key is signed, as if the output spent had an empty script. *)
Theorem C77_unknown_refuted : forall K H dsha hash160 hmac512 garbage rz rzs rks root v,
  fips_constants fips256 K H -> hash_sizes dsha hash160 hmac512 -> draws rz rzs rks -> is_scalar (hk_num root) -> 1 + len (s_ins v) + len (s_outs v) <= 255 ->
  forall p us j i e d, psbt_knows p v us -> room_for_sigs us -> signable hash160 hmac512 (hk_num root) (hk_chain root) us ->
  nth_error (s_ins v) j = Some i -> nth_error us j = Some (add_der nothing_known e) -> has_secret hmac512 (wallet_fp hash160 (hk_num root)) (hk_num root) (hk_chain root) e d ->
  exists p' n g u', psbt_sign_code dsha garbage hmac512 hash160 rz rzs rks p root = Ok (p', n) /\ (exists us', psbt_knows p' v us' /\ nth_error us' j = Some u') /\ sp_sigs u' = [g] /\
    signed_with (rfc2104 (fips_hash fips256 K H) 64) d (dsha (legacy_preimage v j [] 1)) (dv_x e) (dv_y e) (g_r g) (g_s g).
Proof. exact flat_unknown. Qed.
Print Assumptions C77_unknown_refuted.
(** Entries that ask for a signature hash type are passed over: the signatures are those for SIGHASH_ALL, whatever is asked. *)
Theorem C77_type_refuted : forall K H dsha hash160 hmac512 garbage rz rzs rks root v,
  fips_constants fips256 K H -> hash_sizes dsha hash160 hmac512 -> draws rz rzs rks -> is_scalar (hk_num root) ->
  forall q global mi mo us rest p n r ty, reusable dsha garbage q -> psbt_tx v -> fits_maps v global (asking_type ty mi) mo -> maps_tell dsha (s_ins v) mi us ->
  psbt_parse dsha garbage q (wire_psbt (wire_tx v) global (asking_type ty mi ++ mo) ++ rest) = Ok (p, n, r) -> ps_status p = DONE ->
  room_for_sigs us -> signable hash160 hmac512 (hk_num root) (hk_chain root) us ->
  exists p' m gss maps, psbt_sign_code dsha garbage hmac512 hash160 rz rzs rks p root = Ok (p', m) /\
    all_signed dsha hash160 (rfc2104 (fips_hash fips256 K H) 64) hmac512 (hk_num root) (hk_chain root) v us gss /\
    Forall2 (Forall2 psig_pair) (map sp_sigs (with_sigs us gss)) maps /\
    let w := wire_psbt (wire_tx v) [] (maps ++ repeat [] (length (s_outs v))) in
    psbt_length p' = Ok (len w) /\ serialize (psbt_to_stream p') (length w) 0 = Ok (len w, w).
Proof. exact flat_asking. Qed.
Print Assumptions C77_type_refuted.
(** Both inputs have an entry for the wallet's key, with the fingerprint of a toy hash, and ask for SIGHASH_NONE; nothing
    is known of the second, and the first spends an output that anyone can spend. *)
Definition toy20 (m : list Z) : list Z := repeat 9 20.
Definition toy32 (m : list Z) : list Z := repeat 5 32.
Definition toy64 (k m : list Z) : list Z := repeat 3 64.
Definition ex_entry : list Z * list Z := (6 :: sec_bytes false gen_x gen_y, [9; 9; 9; 9]).
Definition ex_maps : list (list (list Z * list Z)) := [[([1], wire_out {| so_value := 77; so_script := [81] |}); ex_entry]; [ex_entry]].
Definition ex_told : list s_input := [ex_input {| so_value := 77; so_script := [81] |} [ex_mine [9; 9; 9; 9] []]; add_der nothing_known (ex_mine [9; 9; 9; 9] [])].
Example C77_case : exists p, psbt_parse toy32 [] psbt_new (wire_psbt (wire_tx ex_tx) [] (asking_type 2 ex_maps ++ [[]])) = Ok (p, len (wire_psbt (wire_tx ex_tx) [] (asking_type 2 ex_maps ++ [[]])), []) /\
  ps_status p = DONE /\ hash_sizes toy32 toy20 toy64 /\ fits_maps ex_tx [] (asking_type 2 ex_maps) [[]] /\ maps_tell toy32 (s_ins ex_tx) ex_maps ex_told /\
  room_for_sigs ex_told /\ signable toy20 toy64 (hk_num ex_root) (hk_chain ex_root) ex_told /\
  has_secret toy64 (wallet_fp toy20 (hk_num ex_root)) (hk_num ex_root) (hk_chain ex_root) (ex_mine [9; 9; 9; 9] []) one.
Proof.
  assert (R : exists p, psbt_parse toy32 [] psbt_new (wire_psbt (wire_tx ex_tx) [] (asking_type 2 ex_maps ++ [[]])) = Ok (p, len (wire_psbt (wire_tx ex_tx) [] (asking_type 2 ex_maps ++ [[]])), []) /\ ps_status p = DONE)
    by (eexists; split; vm_compute; reflexivity).
  destruct R as (p & E & D). exists p. split; [exact E|]. split; [exact D|].
  assert (B : forall n b, 0 <= b < 256 -> bytes_ok (repeat b n)) by (intros; apply Forall_forall; intros x I; apply repeat_spec in I as ->; auto).
  split. { split; [|split]; intros; split; try reflexivity; apply B; lia. }
  split. { split; [reflexivity|]. split; [reflexivity|]. split; [constructor|]. unfold asking_type, ex_maps. cbn [map app].
    repeat match goal with |- Forall _ (_ :: _) => constructor | |- Forall _ [] => constructor | |- pair_ok _ => apply pair_small; vm_compute; reflexivity end. }
  assert (PF : path_fine [9; 9; 9; 9] []) by (repeat split; repeat constructor; try lia; discriminate).
  assert (T : forall u, len (sp_ders u) < 255 -> forall i, entry_tells toy32 i u ex_entry (add_der u (ex_mine [9; 9; 9; 9] []))).
  { intros u L i. apply (tells_der toy32 i u false (ex_mine [9; 9; 9; 9] [])); [exact (proj1 ex_curve)|exact PF|exact L]. }
  split. { constructor; [|constructor; [|constructor]].
    - econstructor; [apply tells_utxo with (o := {| so_value := 77; so_script := [81] |})|].
      + split; [reflexivity|]. split; [split; [cbn [so_value]; lia|split; [constructor; [unfold byte_ok; lia|constructor]|reflexivity]]|]. split; [split; vm_compute; [discriminate|intros [? ?]; congruence]|reflexivity].
      + econstructor; [apply T; reflexivity|constructor].
    - econstructor; [apply T; reflexivity|constructor]. }
  split; [constructor; [|constructor; [|constructor]]; unfold len; cbn; lia|].
  split; [apply ex_signable; constructor; [reflexivity|constructor; [reflexivity|constructor]]|]. exact (ex_secret [9; 9; 9; 9] toy64).
Qed.
(** Two inputs that differ in the script of the output. *)
Example C77_scripts_case : same_for_signing
  {| sp_out := {| so_value := 77; so_script := [81] |}; sp_redeem := []; sp_witness := [82; 83]; sp_ders := [ex_mine [9; 9; 9; 9] []]; sp_sigs := [] |}
  {| sp_out := {| so_value := 77; so_script := 0 :: 32 :: repeat 6 32 |}; sp_redeem := []; sp_witness := [82; 83]; sp_ders := [ex_mine [9; 9; 9; 9] []]; sp_sigs := [] |}.
Proof. repeat split. right. left. discriminate. Qed.

(** * C78 *)
(** The signatures do not depend on the random numbers. *)
Theorem C78_deterministic_partial : forall K H dsha hash160 hmac512 garbage rz rzs rks root v,
  fips_constants fips256 K H -> hash_sizes dsha hash160 hmac512 -> draws rz rzs rks -> is_scalar (hk_num root) -> 1 + len (s_ins v) + len (s_outs v) <= 255 ->
  forall rz' rzs' rks' p us, draws rz' rzs' rks' -> psbt_knows p v us -> room_for_sigs us -> signable hash160 hmac512 (hk_num root) (hk_chain root) us ->
  exists q q' gss n, psbt_sign_code dsha garbage hmac512 hash160 rz rzs rks p root = Ok (q, n) /\ psbt_sign_code dsha garbage hmac512 hash160 rz' rzs' rks' p root = Ok (q', n) /\
    psbt_knows q v (with_sigs us gss) /\ psbt_knows q' v (with_sigs us gss).
Proof. exact flat_same. Qed.
Print Assumptions C78_deterministic_partial.
(** Signing a second time adds every signature a second time. *)
Theorem C78_again_refuted : forall K H dsha hash160 hmac512 garbage rz rzs rks root v,
  fips_constants fips256 K H -> hash_sizes dsha hash160 hmac512 -> draws rz rzs rks -> is_scalar (hk_num root) -> 1 + len (s_ins v) + len (s_outs v) <= 255 ->
  forall rz' rzs' rks' p us, draws rz' rzs' rks' -> psbt_knows p v us ->
  Forall (fun u => len (sp_sigs u) + 2 * len (sp_ders u) <= 255) us -> signable hash160 hmac512 (hk_num root) (hk_chain root) us ->
  exists p1 p2 gss n, psbt_sign_code dsha garbage hmac512 hash160 rz rzs rks p root = Ok (p1, n) /\ psbt_sign_code dsha garbage hmac512 hash160 rz' rzs' rks' p1 root = Ok (p2, n) /\
    all_signed dsha hash160 (rfc2104 (fips_hash fips256 K H) 64) hmac512 (hk_num root) (hk_chain root) v us gss /\ psbt_knows p2 v (with_sigs us (map (fun gs => gs ++ gs) gss)).
Proof. exact flat_again. Qed.
Print Assumptions C78_again_refuted.
