(** Addresses of extended keys, private and watch-only. *)
From Coq Require Import Lia.
From Verif Require Import Base.Bytes Base.BytesFacts Model.Conversion Model.Networks Model.Sign Model.HD Model.Address Model.Stream Model.Text Model.Wallet
  Spec.Codecs Spec.Bech32 Spec.Wire Spec.Address Spec.HD Spec.Keys Spec.Text Spec.Wallet
  Proof.BechFacts Proof.AddrFacts Proof.AddrProps Proof.HDFacts Proof.HDProps Proof.HDPub Proof.TextFacts.
Open Scope Z_scope.

Section Facts.
Variable dsha hash160 : list Z -> list Z.
Hypothesis dsha_len : forall m, length (dsha m) = 32%nat.
Hypothesis dsha_ok : forall m, bytes_ok (dsha m).
Hypothesis hash_len : forall m, length (hash160 m) = 20%nat.
Hypothesis hash_ok : forall m, bytes_ok (hash160 m).

(** What both address() functions do. *)
Definition kaddr (t : script_type) (n : network) (sec buffer : list Z) : outcome (Z * list Z) :=
  match t with
  | P2SH_P2WPKH => Ok (nestedSegwitAddress dsha hash160 sec buffer n)
  | P2PKH => Ok (legacyAddress dsha hash160 sec buffer n)
  | _ => segwitAddress hash160 sec buffer n
  end.
Definition kstring (t : script_type) (n : network) (sec : list Z) : outcome (list Z) :=
  match t with
  | P2SH_P2WPKH => nested_string dsha hash160 sec n
  | P2PKH => legacy_string dsha hash160 sec n
  | _ => segwit_string hash160 sec n
  end.
Definition shown (t : script_type) (sec : list Z) : list Z :=
  match paid_script hash160 t sec with Some bs => bs | None => witness_script 0 (hash160 sec) end.
Lemma hk_kaddr : forall mulG k buffer, hk_address dsha hash160 mulG k buffer = kaddr (hk_type k) (hk_net k) (sec_of (mulG (hk_num k))) buffer.
Proof. intros mulG k buffer. unfold hk_address, kaddr. destruct (hk_type k); reflexivity. Qed.
Lemma hp_kaddr : forall k buffer, hp_address dsha hash160 k buffer = kaddr (hp_type k) (hp_net k) (sec_of (hp_point k)) buffer.
Proof. intros k buffer. unfold hp_address, kaddr. destruct (hp_type k); reflexivity. Qed.
Lemma hk_kstring : forall mulG k, hk_address_string dsha hash160 mulG k = kstring (hk_type k) (hk_net k) (sec_of (mulG (hk_num k))).
Proof. intros mulG k. unfold hk_address_string, kstring. destruct (hk_type k); reflexivity. Qed.
Lemma hp_kstring : forall k, hp_address_string dsha hash160 k = kstring (hp_type k) (hp_net k) (sec_of (hp_point k)).
Proof. intros k. unfold hp_address_string, kstring. destruct (hp_type k); reflexivity. Qed.

Lemma hash_20 : forall m, len (hash160 m) = 20.
Proof. intros. unfold len. rewrite hash_len. reflexivity. Qed.
Lemma cstr_text : forall t k, Forall (fun c => c <> 0) t -> cstr (t ++ zeros k) = t.
Proof.
  induction t as [|c t IH]; intros k F; cbn [app cstr].
  - destruct k; reflexivity.
  - inversion F; subst. destruct (Z.eqb_spec c 0); [contradiction|]. rewrite IH by auto. reflexivity.
Qed.
Lemma cstr_nul : forall t r, Forall (fun c => c <> 0) t -> cstr (t ++ 0 :: r) = t.
Proof.
  induction t as [|c t IH]; intros r F; [reflexivity|]. cbn [app cstr].
  inversion F; subst. destruct (Z.eqb_spec c 0); [contradiction|]. rewrite IH by auto. reflexivity.
Qed.
Lemma text_58 : forall n c p h k, chain_of n c -> byte_ok p -> bytes_ok h -> len h = 20 -> 35 <= len (zeros k) ->
  exists a, base58check_text dsha (p :: h) a /\ cstr (snd (toBase58Check dsha (p :: h) (zeros k))) = a /\ len a <= 35.
Proof.
  intros n c p h k HC BP B L LK. destruct (write58 dsha dsha_len dsha_ok p h (zeros k) BP B L LK) as (a & A1 & A2 & A3).
  exists a. split; [exact A1|]. rewrite A3. cbn [snd]. rewrite cstr_text by (eapply base_text_nonzero; eauto). split; [reflexivity|].
  pose proof (check_text dsha dsha_len dsha_ok (p :: h) a) as X.
  rewrite X; [|constructor; auto|unfold len in *; cbn [length]; lia|exact A1].
  apply check_text_len; auto; [constructor; auto|]. unfold len in *. cbn [length]. lia.
Qed.
(** The address in a buffer. *)
Lemma kaddr_text : forall t n c sec buffer, chain_of n c -> 76 <= len buffer ->
  exists text r, address_of dsha c (shown t sec) text /\ kaddr t n sec buffer = Ok (r, text ++ zeros (length buffer - length text)).
Proof.
  intros t n c sec buffer HC LB.
  destruct (key_addresses dsha hash160 dsha_len dsha_ok hash_len hash_ok n c sec buffer HC LB) as (a & b & d & A & B & D & EA & EB & ED).
  unfold shown, kaddr, paid_script. destruct t; first [rewrite EA; do 2 eexists; split; [exact A|reflexivity] | rewrite ED; do 2 eexists; split; [exact D|reflexivity] | rewrite EB; do 2 eexists; split; [exact B|reflexivity]].
Qed.
Lemma addr_nonzero : forall n c bs text, chain_of n c -> address_of dsha c bs text -> Forall (fun c => c <> 0) text.
Proof.
  intros n c bs text HC A. destruct (hrp_chain _ _ HC) as (_ & _ & _ & HP & _). inversion A; subst;
  first [eapply base_text_nonzero; eassumption | eapply (segwit_nonzero _ 0); [exact HP| |eassumption]];
  (split; [auto|]; split; [lia|]; split; [lia|auto]).
Qed.
(** As a String. *)
Lemma kstring_text : forall t n c sec, chain_of n c ->
  exists text, address_of dsha c (shown t sec) text /\ kstring t n sec = Ok text /\
    (t = P2PKH \/ t = P2SH_P2WPKH -> len text <= 35) /\ (t <> P2PKH -> t <> P2SH_P2WPKH -> len text = len (ch_hrp c) + 40).
Proof.
  intros t n c sec HC. destruct (hrp_chain _ _ HC) as (E1 & E2 & E3 & HP & L4 & BP & BS).
  assert (WS : [0; 20] ++ hash160 sec = witness_script 0 (hash160 sec)) by (unfold witness_script; rewrite hash_20; reflexivity).
  assert (Z40 : zeros (length (zeros 40)) = zeros 40) by reflexivity. assert (Z76 : zeros (length (zeros 76)) = zeros 76) by reflexivity.
  assert (SEG : exists text, address_of dsha c (witness_script 0 (hash160 sec)) text /\ segwit_string hash160 sec n = Ok text /\ len text = len (ch_hrp c) + 40).
  { destruct (write_segwit n c (hash160 sec) (zeros 76) HC (hash_ok _) (or_introl (hash_20 _)) ltac:(vm_compute; discriminate)) as (b & B1 & B2 & B3 & B4).
    exists b. split; [apply addr_wpkh; auto using hash_20|]. split.
    - unfold segwit_string, segwitAddress. rewrite Z76. change (len (zeros 76) <? 76) with false. cbv iota. rewrite B4. cbn [bind snd].
      rewrite cstr_nul by auto. reflexivity.
    - destruct (text_shape _ _ _ _ B1) as (r & _ & ->). rewrite hash_20. change ((8 * 20 + 4) / 5) with 32. lia. }
  destruct SEG as (b & B1 & B2 & B3).
  destruct (text_58 n c (ch_pkh c) (hash160 sec) 40 HC BP (hash_ok _) (hash_20 _) ltac:(vm_compute; discriminate)) as (a & A1 & A2 & A3).
  destruct (text_58 n c (ch_sh c) (hash160 (witness_script 0 (hash160 sec))) 40 HC BS (hash_ok _) (hash_20 _) ltac:(vm_compute; discriminate)) as (d & G1 & G2 & G3).
  assert (LA : legacy_string dsha hash160 sec n = Ok a) by (unfold legacy_string, legacyAddress; rewrite Z40, E2, A2; reflexivity).
  assert (LD : nested_string dsha hash160 sec n = Ok d) by (unfold nested_string, nestedSegwitAddress; rewrite Z40, E3, WS, G2; reflexivity).
  assert (AA : address_of dsha c (p2pkh_script (hash160 sec)) a) by (apply addr_pkh; auto using hash_20).
  assert (AD : address_of dsha c (p2sh_script (hash160 (witness_script 0 (hash160 sec)))) d) by (apply addr_sh; auto using hash_20).
  unfold shown, kstring, paid_script. destruct t;
  first [exists b; repeat split; auto; intros [?|?]; discriminate | exists a; repeat split; auto; congruence | exists d; repeat split; auto; congruence].
Qed.
End Facts.
