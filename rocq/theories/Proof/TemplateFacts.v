(** Script.type() and the functions that make output scripts. *)
From Coq Require Import Lia.
From Verif Require Import Base.Bytes Base.BytesFacts Model.Conversion Model.Stream Model.Networks Model.Script Model.Tx Model.Sign Model.Address Model.KeyStrings
  Spec.Codecs Spec.Wire Spec.Objects Spec.Ops Spec.Bech32 Spec.Address Spec.Form Spec.Template
  Proof.PushFacts Proof.SignFacts Proof.BaseDec Proof.BechSegwit Proof.AddrProps Proof.FormFacts.
Open Scope Z_scope.

(** ** Types *)
Lemma sh_iff : forall s bs, script_holds s bs -> (script_type_of s = P2SH <-> template P2SH bs).
Proof.
  intros s bs H. split.
  - unfold script_type_of. rewrite !(at_nth _ _ _ H). destruct H as (_ & -> & _ & _). unfold len. intros E. destruct (Z.eqb_spec (Z.of_nat (length bs)) 23) as [L|].
    + assert (LN : length bs = 23%nat) by lia. clear L. cut_list 23 bs.
      exists [a1; a2; a3; a4; a5; a6; a7; a8; a9; a10; a11; a12; a13; a14; a15; a16; a17; a18; a19; a20]. split; [reflexivity|].
      cbv [nth Z.to_nat Pos.to_nat Pos.iter_op Nat.add] in E. cbv [length Z.of_nat Pos.of_succ_nat Pos.succ] in E.
      change (23 =? 25) with false in E. cbn [andb] in E.
      match type of E with (if ?c then _ else _) = _ => destruct c eqn:Q end.
      * rewrite !andb_true_iff, !Z.eqb_eq in Q. destruct Q as ((-> & ->) & ->). reflexivity.
      * repeat match type of E with (if ?c then _ else _) = _ => destruct c end; discriminate.
    + exfalso. cbn [andb] in E. repeat match type of E with (if ?c then _ else _) = _ => destruct c end; discriminate.
  - intros (h & L & ->). apply (sh_type s h); auto. unfold len in L. lia.
Qed.
Lemma wsh_iff : forall s bs, script_holds s bs -> (script_type_of s = P2WSH <-> template P2WSH bs).
Proof.
  intros s bs H. split.
  - unfold script_type_of. rewrite !(at_nth _ _ _ H). destruct H as (_ & -> & _ & _). unfold len. intros E.
    repeat match type of E with (if ?c then _ else _) = _ => destruct c eqn:?; try discriminate end.
    match goal with Q : _ = true |- _ => rewrite !andb_true_iff, !Z.eqb_eq in Q; destruct Q as ((L & A) & B) end.
    destruct bs as [|a [|b bs]]; try discriminate L. change (a = 0) in A. change (b = 32) in B. subst a b.
    exists bs. cbn [length] in L. assert (LB : len bs = 32) by (unfold len; lia). split; [exact LB|]. unfold witness_script. rewrite LB. reflexivity.
  - intros (h & L & ->). apply (wsh_type s h); auto. unfold len in L. lia.
Qed.
Lemma pkh_iff : forall s bs, script_holds s bs -> (script_type_of s = P2PKH <-> template P2PKH bs).
Proof.
  intros s bs H. rewrite (pkh_type s bs H). cbn [template]. split; intros (h & L & ->); exists h; (split; [unfold len in *; lia|reflexivity]).
Qed.
Lemma wpkh_iff : forall s bs, script_holds s bs -> (script_type_of s = P2WPKH <-> template P2WPKH bs).
Proof.
  intros s bs H. rewrite (wpkh_type s bs H). cbn [template]. split; intros (h & L & ->); exists h.
  - assert (LH : len h = 20) by (unfold len; lia). split; [exact LH|]. unfold witness_script. rewrite LH. reflexivity.
  - split; [unfold len in L; lia|]. unfold witness_script. rewrite L. reflexivity.
Qed.
Lemma type_exact : forall s bs, script_holds s bs ->
  (forall t, In t [P2PKH; P2SH; P2WPKH; P2WSH] -> (script_type_of s = t <-> template t bs)) /\ (script_type_of s = UNKNOWN_TYPE <-> forall t, ~ template t bs).
Proof.
  intros s bs H. assert (A : forall t, In t [P2PKH; P2SH; P2WPKH; P2WSH] -> (script_type_of s = t <-> template t bs)).
  { intros t [<-|[<-|[<-|[<-|[]]]]]; [apply pkh_iff|apply sh_iff|apply wpkh_iff|apply wsh_iff]; exact H. }
  split; [exact A|]. split.
  - intros E t T. assert (I : In t [P2PKH; P2SH; P2WPKH; P2WSH]) by (destruct t; cbn [template] in T; try contradiction; cbn [In]; auto).
    apply (A t I) in T. rewrite E in T. subst t. destruct I as [X|[X|[X|[X|[]]]]]; discriminate X.
  - intros N. assert (NN : forall t, In t [P2PKH; P2SH; P2WPKH; P2WSH] -> script_type_of s <> t) by (intros t I E; exact (N t (proj1 (A t I) E))).
    pose proof (NN P2PKH (or_introl eq_refl)). pose proof (NN P2SH (or_intror (or_introl eq_refl))). pose proof (NN P2WPKH (or_intror (or_intror (or_introl eq_refl)))).
    pose proof (NN P2WSH (or_intror (or_intror (or_intror (or_introl eq_refl))))).
    unfold script_type_of in *. repeat match goal with |- context [if ?b then _ else _] => destruct b; [congruence|] end. reflexivity.
Qed.

(** ** Functions *)
Lemma of_holds : forall bs, bytes_ok bs -> len bs <= 10000 -> script_holds (script_of bs) bs.
Proof.
  intros bs B L. unfold script_of, script_push. change (sc_len script_new) with 0. change MAX_SCRIPT_SIZE with 10000. destruct (Z.gtb_spec (0 + len bs) 10000); [lia|].
  repeat split; auto. change (2^31) with 2147483648. lia.
Qed.
Lemma with_holds : forall bs, bytes_ok bs -> len bs <= 10000 -> script_holds (script_with bs) bs.
Proof. intros bs B L. repeat split; auto. change (2^31) with 2147483648. lia. Qed.
Lemma holds_bytes : forall s bs, script_holds s bs -> firstn (Z.to_nat (sc_len s)) (sc_arr s) = bs.
Proof. intros s bs (A & L & _). rewrite L, A. apply firstn_all2. unfold len. lia. Qed.

Section Hashes.
Variable hash160 sha256 : list Z -> list Z.
Hypothesis hash_len : forall m, length (hash160 m) = 20%nat.
Hypothesis hash_ok : forall m, bytes_ok (hash160 m).
Hypothesis sha_len : forall m, length (sha256 m) = 32%nat.
Hypothesis sha_ok : forall m, bytes_ok (sha256 m).

Lemma hash_l : forall m, len (hash160 m) = 20. Proof. intros m. unfold len. rewrite hash_len. reflexivity. Qed.
Lemma sha_l : forall m, len (sha256 m) = 32. Proof. intros m. unfold len. rewrite sha_len. reflexivity. Qed.
Lemma pkh_fine : forall m, bytes_ok (p2pkh_script (hash160 m)) /\ len (p2pkh_script (hash160 m)) <= 10000.
Proof. intros m. unfold p2pkh_script. split; [repeat (apply bytes_ok_app; split); auto; repeat constructor; unfold byte_ok; lia|]. rewrite !len_app, hash_l. vm_compute. discriminate. Qed.
Lemma sh_fine : forall m, bytes_ok (p2sh_script (hash160 m)) /\ len (p2sh_script (hash160 m)) <= 10000.
Proof. intros m. unfold p2sh_script. split; [repeat (apply bytes_ok_app; split); auto; repeat constructor; unfold byte_ok; lia|]. rewrite !len_app, hash_l. vm_compute. discriminate. Qed.
Lemma w20 : forall m, witness_script 0 (hash160 m) = [0; 20] ++ hash160 m.
Proof. intros m. unfold witness_script. rewrite hash_l. reflexivity. Qed.
Lemma w32 : forall m, witness_script 0 (sha256 m) = [0; 32] ++ sha256 m.
Proof. intros m. unfold witness_script. rewrite sha_l. reflexivity. Qed.
Lemma w20_fine : forall m, bytes_ok ([0; 20] ++ hash160 m) /\ len ([0; 20] ++ hash160 m) <= 10000.
Proof. intros m. split; [apply bytes_ok_app; split; auto; repeat constructor; unfold byte_ok; lia|]. rewrite len_app, hash_l. vm_compute. discriminate. Qed.
Lemma w32_fine : forall m, bytes_ok ([0; 32] ++ sha256 m) /\ len ([0; 32] ++ sha256 m) <= 10000.
Proof. intros m. split; [apply bytes_ok_app; split; auto; repeat constructor; unfold byte_ok; lia|]. rewrite len_app, sha_l. vm_compute. discriminate. Qed.

Lemma key_functions : forall sec,
  script_holds (pkh hash160 sec) (p2pkh_script (hash160 sec)) /\ script_holds (script_of_pubkey hash160 sec P2PKH) (p2pkh_script (hash160 sec)) /\
  script_holds (wpkh hash160 sec) (witness_script 0 (hash160 sec)) /\ script_holds (script_of_pubkey hash160 sec P2WPKH) (witness_script 0 (hash160 sec)).
Proof.
  intros sec. destruct (pkh_fine sec) as [A B]. destruct (w20_fine sec) as [C D]. rewrite w20.
  split; [exact (of_holds _ A B)|]. split; [exact (with_holds _ A B)|]. split; [exact (of_holds _ C D)|exact (with_holds _ C D)].
Qed.
Lemma script_functions : forall s bs, script_holds s bs ->
  script_holds (sh hash160 s) (p2sh_script (hash160 bs)) /\ script_holds (script_of_script hash160 sha256 s P2SH) (p2sh_script (hash160 bs)) /\
  script_holds (wsh sha256 s) (witness_script 0 (sha256 bs)) /\ script_holds (script_of_script hash160 sha256 s P2WSH) (witness_script 0 (sha256 bs)).
Proof.
  intros s bs H. destruct (sh_fine bs) as [A B]. destruct (w32_fine bs) as [C D]. rewrite w32. unfold sh, wsh, script_of_script. rewrite (holds_bytes s bs H).
  split; [exact (of_holds _ A B)|]. split; [exact (with_holds _ A B)|]. split; [exact (of_holds _ C D)|exact (with_holds _ C D)].
Qed.
Lemma other_types : forall sec s t, (~ In t [P2PKH; P2WPKH] -> script_of_pubkey hash160 sec t = script_new) /\
  (~ In t [P2SH; P2WSH] -> script_of_script hash160 sha256 s t = script_new).
Proof.
  intros sec s t. split; intros N; destruct t; try reflexivity; exfalso; apply N; cbn [In]; auto.
Qed.

(** ** Addresses *)
Variable dsha : list Z -> list Z.
Hypothesis dsha_len : forall m, length (dsha m) = 32%nat.
Hypothesis dsha_ok : forall m, bytes_ok (dsha m).

Lemma app_cut : forall (a b t : list Z), a ++ t = b ++ t -> a = b. Proof. intros a b t E. exact (app_inv_tail t a b E). Qed.
Lemma witness_same : forall h h', witness_script 0 h = witness_script 0 h' -> h = h'.
Proof. intros h h' E. exact (f_equal (skipn 2) E). Qed.
Lemma address_unique : forall c bs a b, address_of dsha c bs a -> address_of dsha c bs b -> a = b.
Proof.
  intros c bs a b A B. remember bs as bs' eqn:Q in B. destruct A as [h t O L T|h t O L T|h t O L T|h t O L T]; destruct B as [h' t' O' L' T'|h' t' O' L' T'|h' t' O' L' T'|h' t' O' L' T']; try discriminate Q.
  - apply (f_equal (skipn 3)) in Q. change (h' ++ [136; 172] = h ++ [136; 172]) in Q. apply app_cut in Q. subst h'. exact (base_text_unique 58 base58_alphabet _ _ _ ltac:(lia) T T').
  - apply (f_equal (skipn 2)) in Q. change (h' ++ [135] = h ++ [135]) in Q. apply app_cut in Q. subst h'. exact (base_text_unique 58 base58_alphabet _ _ _ ltac:(lia) T T').
  - apply witness_same in Q. subst h'. exact (segwit_text_unique _ _ _ _ _ T T').
  - apply witness_same in Q. subst h'. lia.
  - apply witness_same in Q. subst h'. lia.
  - apply witness_same in Q. subst h'. exact (segwit_text_unique _ _ _ _ _ T T').
Qed.
Lemma function_addresses : forall n c test sec, chain_of n c -> is_test n test ->
  address_string dsha (pkh hash160 sec) n = legacy_address_string dsha hash160 sec n /\
  address_string dsha (wpkh hash160 sec) n = segwit_address_string hash160 sec n /\
  address_string dsha (sh hash160 (wpkh hash160 sec)) n = nested_address_string dsha hash160 sec n.
Proof.
  intros n c test sec N T. destruct (key_functions sec) as (A & _ & B & _). destruct (script_functions _ _ B) as (D & _).
  destruct (key_address_strings dsha dsha_len dsha_ok hash160 hash_len hash_ok n c sec N) as (a & b & d & E1 & E2 & E3 & F1 & F2 & F3).
  rewrite E1, E2, E3.
  assert (S1 : standard_script (p2pkh_script (hash160 sec))) by (exists (hash160 sec); split; [apply hash_ok|left; split; [apply hash_l|auto]]).
  assert (S2 : standard_script (witness_script 0 (hash160 sec))) by (exists (hash160 sec); split; [apply hash_ok|left; split; [apply hash_l|auto]]).
  assert (S3 : standard_script (p2sh_script (hash160 (witness_script 0 (hash160 sec))))) by (exists (hash160 (witness_script 0 (hash160 sec))); split; [apply hash_ok|left; split; [apply hash_l|auto]]).
  destruct (address_string_ok dsha dsha_len dsha_ok n c test _ _ N T A S1) as (a' & G1 & H1). destruct (address_string_ok dsha dsha_len dsha_ok n c test _ _ N T B S2) as (b' & G2 & H2).
  destruct (address_string_ok dsha dsha_len dsha_ok n c test _ _ N T D S3) as (d' & G3 & H3). rewrite G1, G2, G3.
  rewrite (address_unique c _ _ _ F1 H1), (address_unique c _ _ _ F2 H2), (address_unique c _ _ _ F3 H3). auto.
Qed.
Lemma multi_addresses : forall n c test m keys, chain_of n c -> is_test n test -> 1 <= m <= len keys -> len keys <= 16 -> Forall key_bytes keys ->
  let r := multisig_script m keys in
  exists a b d, address_string dsha (wsh sha256 (multi m keys)) n = Ok a /\ address_of dsha c (witness_script 0 (sha256 r)) a /\
    address_string dsha (sh hash160 (wsh sha256 (multi m keys))) n = Ok b /\ address_of dsha c (p2sh_script (hash160 (witness_script 0 (sha256 r)))) b /\
    address_string dsha (sh hash160 (multi m keys)) n = Ok d /\ address_of dsha c (p2sh_script (hash160 r)) d.
Proof.
  intros n c test m keys N T M K F. cbv zeta. pose proof (multi_template m keys M K F) as R. destruct (script_functions _ _ R) as (D & _ & W & _). destruct (script_functions _ _ W) as (B & _).
  set (r := multisig_script m keys) in *.
  assert (S1 : standard_script (witness_script 0 (sha256 r))) by (exists (sha256 r); split; [apply sha_ok|right; split; [apply sha_l|reflexivity]]).
  assert (S2 : forall x, standard_script (p2sh_script (hash160 x))) by (intros x; exists (hash160 x); split; [apply hash_ok|left; split; [apply hash_l|auto]]).
  destruct (address_string_ok dsha dsha_len dsha_ok n c test _ _ N T W S1) as (a & G1 & H1). destruct (address_string_ok dsha dsha_len dsha_ok n c test _ _ N T B (S2 _)) as (b & G2 & H2).
  destruct (address_string_ok dsha dsha_len dsha_ok n c test _ _ N T D (S2 _)) as (d & G3 & H3). exists a, b, d. auto 10.
Qed.
(** ** Redeem scripts that cannot be spent *)
Lemma keys_long : forall keys k, Forall (fun x : list Z => (k <= length x)%nat) keys -> len keys * (Z.of_nat k + 1) <= len (flat_map (fun x => len x :: x) keys).
Proof.
  induction keys as [|x t IH]; intros k F; [vm_compute; discriminate|]. apply Forall_cons_iff in F as [F1 F2]. cbn [flat_map]. rewrite len_app, !len_cons. specialize (IH k F2). unfold len at 2. lia.
Qed.
Lemma keys_exact : forall keys k, Forall (fun x : list Z => length x = k) keys -> len (flat_map (fun x => len x :: x) keys) = len keys * (Z.of_nat k + 1).
Proof.
  induction keys as [|x t IH]; intros k F; [reflexivity|]. apply Forall_cons_iff in F as [F1 F2]. cbn [flat_map]. rewrite len_app, !len_cons, (IH k F2). unfold len at 1. lia.
Qed.
Lemma redeem_len : forall m keys, len (multisig_script m keys) = len (flat_map (fun x => len x :: x) keys) + 3.
Proof. intros m keys. unfold multisig_script. rewrite len_cons, len_app. change (len [80 + len keys; 174]) with 2. lia. Qed.
Lemma sixteen_keys : forall m keys, 1 <= m <= 16 -> len keys = 16 -> Forall key_bytes keys ->
  script_holds (sh hash160 (multi m keys)) (p2sh_script (hash160 (multisig_script m keys))) /\ max_element < len (multisig_script m keys).
Proof.
  intros m keys M L F. pose proof (multi_template m keys ltac:(lia) ltac:(lia) F) as R. split; [exact (proj1 (script_functions _ _ R))|].
  rewrite redeem_len. assert (G : Forall (fun x : list Z => (33 <= length x)%nat) keys) by (eapply Forall_impl; [|exact F]; intros x [_ [X|X]]; cbv beta; lia).
  pose proof (keys_long keys 33 G). unfold max_element. lia.
Qed.
Lemma fifteen_keys : forall m keys, len keys <= 15 -> Forall (fun x : list Z => length x = 33%nat) keys -> len (multisig_script m keys) <= max_element.
Proof. intros m keys L F. rewrite redeem_len, (keys_exact keys 33 F). unfold max_element. lia. Qed.
End Hashes.

(** The same without a word about SHA-256. *)
Lemma none_ok : forall m : list Z, bytes_ok ((fun _ : list Z => repeat 0 32) m).
Proof. intros m. cbv beta. repeat constructor; unfold byte_ok; lia. Qed.
Definition addresses_plain hash160 (HL : forall m, length (hash160 m) = 20%nat) (HO : forall m, bytes_ok (hash160 m)) :=
  function_addresses hash160 (fun _ => repeat 0 32) HL HO (fun _ => eq_refl) none_ok.
Definition sixteen_plain hash160 (HL : forall m, length (hash160 m) = 20%nat) (HO : forall m, bytes_ok (hash160 m)) :=
  sixteen_keys hash160 (fun _ => repeat 0 32) HL HO (fun _ => eq_refl) none_ok.
