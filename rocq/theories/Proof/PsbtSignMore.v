(** What follows from [sign_real]: the same again, the bytes that are written, what does not matter. *)
From Coq Require Import Lia.
From Verif Require Import Base.Bytes Base.BytesFacts Spec.Bignum Spec.Codecs Spec.Hash Spec.Wire Spec.Objects Spec.Keys Spec.HD Spec.Scalar Spec.Signature Spec.Point Spec.Sighash Spec.Curve Spec.Schemes Spec.PSBT Spec.PSBTSign
  Model.Stream Model.Script Model.Tx Model.Signature Model.Bignum Model.Point Model.HD Model.PSBT Model.PSBTSign
  Proof.IntVarint Proof.TxSer Proof.SchemeMain Proof.PsbtFacts Proof.PsbtWrite Proof.PsbtProps Proof.PsbtMore Proof.PsbtSign Proof.PsbtSignReal Proof.PsbtKnows.
Open Scope Z_scope.
Notation P := field_prime.
Notation N := group_order.

Lemma nth_ext_list : forall {A} (a b : list A), (forall j, nth_error a j = nth_error b j) -> a = b.
Proof.
  intros A. induction a as [|x a IH]; intros [|y b] E; auto; try (specialize (E 0%nat); discriminate). f_equal; [specialize (E 0%nat); injection E as E; exact E|].
  apply IH. intros j. apply (E (S j)).
Qed.
Lemma nth_combine : forall {A B} (l : list A) (m : list B) j a b, nth_error (combine l m) j = Some (a, b) -> nth_error l j = Some a /\ nth_error m j = Some b.
Proof.
  intros A B. induction l as [|x l IH]; intros [|y m] [|j] a b E; try discriminate; cbn [combine nth_error] in *; [injection E as -> ->; auto|apply IH; exact E].
Qed.
(** ** The signatures are determined *)
Lemma secret_fun : forall hmac fp k c e d d', has_secret hmac fp k c e d -> has_secret hmac fp k c e d' -> d = d'.
Proof. intros hmac fp k c e d d' (_ & (c1 & E1) & _) (_ & (c2 & E2) & _). rewrite E1 in E2. congruence. Qed.
Lemma signed_fun : forall hmac d h x y r s r' s', signed_with hmac d h x y r s -> signed_with hmac d h x y r' s' -> r = r' /\ s = s'.
Proof.
  intros hmac d h x y r s r' s' [(j & id & J & S & F & _)|(NU & -> & ->)] [(j' & id' & J' & S' & F' & _)|(NU' & -> & ->)].
  - assert (j = j') by (destruct (Nat.lt_trichotomy j j') as [L|[L|L]]; [exfalso; apply (F' j L); do 3 eexists; exact S|exact L|exfalso; apply (F j' L); do 3 eexists; exact S']).
    subst j'. destruct (signature_fun _ _ _ _ _ _ _ _ _ S S') as (-> & -> & _). auto.
  - exfalso. apply (NU' j J). do 3 eexists. exact S.
  - exfalso. apply (NU j' J'). do 3 eexists. exact S'.
  - auto.
Qed.
Lemma signatures_fun : forall own b l gs, signatures own b l gs -> (forall e g g', b e g -> b e g' -> g = g') -> forall gs', signatures own b l gs' -> gs = gs'.
Proof.
  intros own b l gs S F. induction S as [|e l gs NO S IH|e g l gs O B S IH]; intros gs' S'.
  - inversion S'. reflexivity.
  - inversion S' as [|e' l' q NO' T|e' g' l' q O' B' T]; subst; [apply IH; auto|contradiction].
  - inversion S' as [|e' l' q NO' T|e' g' l' q O' B' T]; subst; [contradiction|]. f_equal; [apply (F e); auto|apply IH; auto].
Qed.
Lemma all_signed_fun : forall dsha hash160 hmac hmac512 k c v us gss gss', length us = length (s_ins v) ->
  all_signed dsha hash160 hmac hmac512 k c v us gss -> all_signed dsha hash160 hmac hmac512 k c v us gss' -> gss = gss'.
Proof.
  intros dsha hash160 hmac hmac512 k c v us gss gss' LU (L & S) (L' & S'). apply nth_ext_list. intros j.
  destruct (nth_error us j) as [u|] eqn:NU.
  - assert (J : (j < length us)%nat) by (apply nth_error_Some; congruence).
    destruct (nth_error (s_ins v) j) as [i|] eqn:NI; [|apply nth_error_None in NI; lia].
    destruct (nth_error gss j) as [gs|] eqn:NG; [|apply nth_error_None in NG; lia].
    destruct (nth_error gss' j) as [gs'|] eqn:NG'; [|apply nth_error_None in NG'; lia].
    f_equal. eapply signatures_fun; [apply (S j i u gs); auto| |apply (S' j i u gs'); auto].
    intros e g g' (A1 & A2 & A3 & d & A4 & A5) (B1 & B2 & B3 & d' & B4 & B5). rewrite (secret_fun _ _ _ _ _ _ _ B4 A4) in B5. destruct (signed_fun _ _ _ _ _ _ _ _ _ A5 B5) as (ER & ES).
    destruct g as [a1 a2 a3 a4 a5], g' as [b1 b2 b3 b4 b5]. cbn in A1, A2, A3, B1, B2, B3, ER, ES. congruence.
  - apply nth_error_None in NU. transitivity (@None (list s_psig)); [|symmetry]; apply nth_error_None; lia.
Qed.
(** [input_hash] does not look at signatures; nor at the script of the output, if there is another one. *)
Lemma hash_same : forall dsha hash160 v idx i u u' sec, same_for_signing u u' -> input_hash dsha hash160 v idx i u sec = input_hash dsha hash160 v idx i u' sec.
Proof.
  intros dsha hash160 v idx i u u' sec (E1 & E2 & E3 & _ & E5). unfold input_hash. cbv zeta. rewrite <- E1, <- E2, <- E3.
  destruct (sp_witness u); [|reflexivity]. destruct (sp_redeem u); [|reflexivity]. destruct E5 as [->|[Q|Q]]; [reflexivity|congruence|congruence].
Qed.
Lemma all_signed_same : forall dsha hash160 hmac hmac512 k c v us us' gss, Forall2 same_for_signing us us' ->
  all_signed dsha hash160 hmac hmac512 k c v us gss -> all_signed dsha hash160 hmac hmac512 k c v us' gss.
Proof.
  intros dsha hash160 hmac hmac512 k c v us us' gss F (L & S). split; [rewrite <- (F2_len _ _ _ F); exact L|]. intros j i u' gs NI NU NG.
  destruct (nth_F2 _ _ _ _ _ F NU) as (u & NU' & SM). pose proof SM as (_ & _ & _ & ED & _). rewrite <- ED. eapply signatures_impl; [apply (S j i u gs); auto|reflexivity|].
  intros e g _ _ (B1 & B2 & B3 & d & B4 & B5). split; [exact B1|]. split; [exact B2|]. split; [exact B3|]. exists d. split; [exact B4|]. rewrite <- (hash_same _ _ _ _ _ _ _ _ SM). exact B5.
Qed.
Lemma added_same : forall us gss, length gss = length us -> Forall2 same_for_signing us (with_sigs us gss).
Proof.
  induction us as [|u us IH]; intros [|g gss] L; try discriminate; [constructor|]. unfold with_sigs. cbn [combine map fst snd]. constructor; [|apply IH; injection L as L; exact L].
  repeat split. left. reflexivity.
Qed.
Lemma entries_added : forall us gss, length gss = length us -> entries (with_sigs us gss) = entries us.
Proof.
  induction us as [|u us IH]; intros [|g gss] L; try discriminate; [reflexivity|]. injection L as L. unfold entries, with_sigs. cbn [combine map fst snd flat_map add_sigs sp_ders]. f_equal. apply (IH gss L).
Qed.
Lemma with_twice : forall us gss, length gss = length us -> with_sigs (with_sigs us gss) gss = with_sigs us (map (fun gs => gs ++ gs) gss).
Proof.
  induction us as [|u us IH]; intros [|g gss] L; try discriminate; [reflexivity|]. injection L as L. unfold with_sigs in *. cbn [combine map fst snd]. f_equal; [|apply IH; auto].
  unfold add_sigs. cbn [sp_out sp_redeem sp_witness sp_ders sp_sigs]. rewrite app_assoc. reflexivity.
Qed.
Lemma signatures_len : forall own b l gs, signatures own b l gs -> (length gs <= length l)%nat.
Proof. intros own b l gs S. induction S; cbn [length]; lia. Qed.
Lemma signatures_all : forall own b l gs, signatures own b l gs -> Forall own l -> length gs = length l.
Proof. intros own b l gs S. induction S; intros F; [reflexivity| |]; apply Forall_cons_iff in F as [F1 F2]; [contradiction|cbn [length]; auto]. Qed.

Lemma map_asking : forall dsha i u l u' ty, map_tells dsha i u l u' -> map_tells dsha i u (l ++ [([3], le_bytes 4 ty)]) u'.
Proof.
  intros dsha i u l u' ty T. induction T as [u|u e u1 l u2 E T IH]; cbn [app].
  - econstructor; [|constructor]. apply tells_other; [lia|]. unfold len. cbn [length]. lia.
  - econstructor; [exact E|exact IH].
Qed.
Lemma maps_asking : forall dsha is mi us ty, maps_tell dsha is mi us -> maps_tell dsha is (asking_type ty mi) us.
Proof. intros dsha is mi us ty T. induction T; cbn [asking_type map]; constructor; auto using map_asking. Qed.
Section More.
Variables K H : list Z.
Hypothesis C : fips_constants fips256 K H.
Notation hmac := (rfc2104 (fips_hash fips256 K H) 64).
Variables (dsha hash160 : list Z -> list Z) (hmac512 : list Z -> list Z -> list Z) (garbage : list Z).
Hypothesis H20 : forall m, length (hash160 m) = 20%nat /\ bytes_ok (hash160 m).
Hypothesis H32 : forall m, word256 (dsha m).
Hypothesis H64 : forall k m, length (hmac512 k m) = 64%nat /\ bytes_ok (hmac512 k m).
Variables (root : hdpriv) (v : s_tx).
Hypothesis SR : is_scalar (hk_num root).
Hypothesis VL : 1 + len (s_ins v) + len (s_outs v) <= 255.
Notation k := (hk_num root).
Notation c := (hk_chain root).
Notation fp := (wallet_fp hash160 k).
Notation signable := (signable hash160 hmac512 k c).

(** Signing again adds the same signatures again. *)
Theorem sign_again : forall rz rzs rks rz' rzs' rks' p us, draws rz rzs rks -> draws rz' rzs' rks' -> psbt_knows p v us ->
  Forall (fun u => len (sp_sigs u) + 2 * len (sp_ders u) <= 255) us -> signable us ->
  exists p1 p2 gss n, psbt_sign_code dsha garbage hmac512 hash160 rz rzs rks p root = Ok (p1, n) /\ psbt_sign_code dsha garbage hmac512 hash160 rz' rzs' rks' p1 root = Ok (p2, n) /\
    all_signed dsha hash160 hmac hmac512 k c v us gss /\ psbt_knows p2 v (with_sigs us (map (fun gs => gs ++ gs) gss)).
Proof.
  intros rz rzs rks rz' rzs' rks' p us (RZ & RS & RK) (RZ' & RS' & RK') KN RM (PR & BP).
  assert (RM1 : room_for_sigs us) by (eapply Forall_impl; [|exact RM]; intros u U; cbn beta in *; pose proof (len_nonneg _ (sp_ders u)); lia).
  destruct (sign_real K H C dsha hash160 hmac512 garbage rz rzs rks H20 H32 H64 RZ RS RK root v SR VL p us KN RM1 PR BP) as (p1 & gss & E1 & A1 & _ & KN1 & _).
  pose proof (proj1 A1) as LG.
  assert (LU : length us = length (s_ins v)) by (destruct KN as (_ & _ & ins & _ & L & _); exact L).
  assert (RM2 : room_for_sigs (with_sigs us gss)).
  { apply Forall_forall. intros u2 I2. apply In_nth_error in I2 as (j & N2). pose proof (added_same us gss LG) as FS. destruct (nth_F2 _ _ _ _ _ FS N2) as (u & NU & SM).
    assert (J : (j < length us)%nat) by (apply nth_error_Some; congruence). destruct (nth_error gss j) as [gs|] eqn:NG; [|apply nth_error_None in NG; lia].
    destruct (nth_error (s_ins v) j) as [i|] eqn:NI; [|apply nth_error_None in NI; lia].
    assert (EU : u2 = add_sigs u gs).
    { unfold with_sigs in N2. rewrite nth_error_map in N2. destruct (nth_error (combine us gss) j) as [[a b]|] eqn:NC; [|discriminate]. cbn [option_map fst snd] in N2.
      destruct (nth_combine us gss j a b NC) as (Q1 & Q2). congruence. }
    rewrite EU. unfold add_sigs. cbn [sp_sigs sp_ders]. rewrite len_app. pose proof (signatures_len _ _ _ _ (proj2 A1 j i u gs NI NU NG)) as SL.
    rewrite Forall_forall in RM. specialize (RM u (nth_error_In _ _ NU)). unfold len in *. lia. }
  pose proof (entries_added us gss LG) as EE.
  destruct (sign_real K H C dsha hash160 hmac512 garbage rz' rzs' rks' H20 H32 H64 RZ' RS' RK' root v SR VL p1 (with_sigs us gss) KN1 RM2) as (p2 & gss2 & E2 & A2 & _ & KN2 & _); [rewrite EE; exact PR|rewrite EE; exact BP|].
  assert (A1' : all_signed dsha hash160 hmac hmac512 k c v (with_sigs us gss) gss) by (eapply all_signed_same; [apply added_same; exact LG|exact A1]).
  assert (LW : length (with_sigs us gss) = length (s_ins v)) by (rewrite <- (F2_len _ _ _ (added_same us gss LG)); exact LU).
  rewrite <- (all_signed_fun _ _ _ _ _ _ _ _ _ _ LW A1' A2) in *. rewrite with_twice in KN2 by exact LG.
  exists p1, p2, gss, (len (concat gss) mod 256). auto.
Qed.
(** A PSBT that differs in the scripts of outputs only gets the same signatures. *)
Theorem sign_unrelated : forall rz rzs rks rz' rzs' rks' p p' us us', draws rz rzs rks -> draws rz' rzs' rks' -> psbt_knows p v us -> psbt_knows p' v us' ->
  Forall2 same_for_signing us us' -> room_for_sigs us -> room_for_sigs us' -> signable us ->
  exists q q' gss n, psbt_sign_code dsha garbage hmac512 hash160 rz rzs rks p root = Ok (q, n) /\ psbt_sign_code dsha garbage hmac512 hash160 rz' rzs' rks' p' root = Ok (q', n) /\
    all_signed dsha hash160 hmac hmac512 k c v us gss /\ psbt_knows q v (with_sigs us gss) /\ psbt_knows q' v (with_sigs us' gss).
Proof.
  intros rz rzs rks rz' rzs' rks' p p' us us' (RZ & RS & RK) (RZ' & RS' & RK') KN KN' F RM RM' (PR & BP).
  destruct (sign_real K H C dsha hash160 hmac512 garbage rz rzs rks H20 H32 H64 RZ RS RK root v SR VL p us KN RM PR BP) as (q & gss & E1 & A1 & _ & KN1 & _).
  assert (EE : entries us' = entries us).
  { clear - F. induction F as [|u u' l l' (_ & _ & _ & E & _) F IH]; [reflexivity|]. unfold entries in *. cbn [flat_map]. rewrite E, IH. reflexivity. }
  destruct (sign_real K H C dsha hash160 hmac512 garbage rz' rzs' rks' H20 H32 H64 RZ' RS' RK' root v SR VL p' us' KN' RM') as (q' & gss' & E2 & A2 & _ & KN2 & _); [rewrite EE; exact PR|rewrite EE; exact BP|].
  assert (LU : length us' = length (s_ins v)) by (destruct KN' as (_ & _ & ins & _ & L & _); exact L).
  rewrite <- (all_signed_fun _ _ _ _ _ _ _ _ _ _ LU (all_signed_same _ _ _ _ _ _ _ _ _ _ F A1) A2) in *.
  exists q, q', gss, (len (concat gss) mod 256). auto.
Qed.
(** An input of which only a key is known is signed. *)
Theorem sign_unknown : forall rz rzs rks p us j i e d, draws rz rzs rks -> psbt_knows p v us -> room_for_sigs us -> signable us ->
  nth_error (s_ins v) j = Some i -> nth_error us j = Some (add_der nothing_known e) -> has_secret hmac512 fp k c e d ->
  exists p' n g u', psbt_sign_code dsha garbage hmac512 hash160 rz rzs rks p root = Ok (p', n) /\ (exists us', psbt_knows p' v us' /\ nth_error us' j = Some u') /\ sp_sigs u' = [g] /\
    signed_with hmac d (dsha (legacy_preimage v j [] 1)) (dv_x e) (dv_y e) (g_r g) (g_s g).
Proof.
  intros rz rzs rks p us j i e d (RZ & RS & RK) KN RM (PR & BP) NI NU HS.
  destruct (sign_real K H C dsha hash160 hmac512 garbage rz rzs rks H20 H32 H64 RZ RS RK root v SR VL p us KN RM PR BP) as (q & gss & E1 & A1 & _ & KN1 & _).
  assert (J : (j < length us)%nat) by (apply nth_error_Some; congruence). pose proof (proj1 A1) as LG. destruct (nth_error gss j) as [gs|] eqn:NG; [|apply nth_error_None in NG; lia].
  pose proof (proj2 A1 j i _ gs NI NU NG) as SG. cbn [add_der nothing_known sp_ders app] in SG.
  inversion SG as [|e' l' x NO T|e' g l' x O B T]; subst; [exfalso; apply NO; eauto|]. inversion T; subst. destruct B as (_ & _ & _ & d' & HS' & SW). rewrite (secret_fun _ _ _ _ _ _ _ HS' HS) in SW.
  eexists q, _, g, (add_sigs (add_der nothing_known e) [g]). split; [exact E1|]. split; [|split; [reflexivity|exact SW]].
  eexists. split; [exact KN1|]. unfold with_sigs. rewrite nth_error_map. destruct (nth_error (combine us gss) j) as [[a b]|] eqn:NC.
  - destruct (nth_combine _ _ _ _ _ NC) as (Q1 & Q2). cbn [option_map fst snd]. congruence.
  - apply nth_error_None in NC. rewrite combine_length in NC. lia.
Qed.
(** The count when the wallet owns all entries. *)
Theorem sign_count : forall rz rzs rks p us, draws rz rzs rks -> psbt_knows p v us -> room_for_sigs us -> signable us ->
  Forall (fun e => exists d, has_secret hmac512 fp k c e d) (entries us) ->
  exists p' gss, psbt_sign_code dsha garbage hmac512 hash160 rz rzs rks p root = Ok (p', len (entries us) mod 256) /\ psbt_knows p' v (with_sigs us gss) /\ length (concat gss) = length (entries us).
Proof.
  intros rz rzs rks p us (RZ & RS & RK) KN RM (PR & BP) OW.
  destruct (sign_real K H C dsha hash160 hmac512 garbage rz rzs rks H20 H32 H64 RZ RS RK root v SR VL p us KN RM PR BP) as (q & gss & E1 & (LG & A1) & _ & KN1 & _).
  assert (LU : length us = length (s_ins v)) by (destruct KN as (_ & _ & ins & _ & L & _); exact L).
  assert (LC : length (concat gss) = length (entries us)).
  { assert (X : forall is off us gss, length gss = length us -> length us = length is -> Forall (fun e => exists d, has_secret hmac512 fp k c e d) (entries us) ->
      (forall j i u gs, nth_error is j = Some i -> nth_error us j = Some u -> nth_error gss j = Some gs ->
        signatures (fun e => exists d, has_secret hmac512 fp k c e d)
          (fun e g => g_comp g = true /\ g_x g = dv_x e /\ g_y g = dv_y e /\ exists d, has_secret hmac512 fp k c e d /\
             signed_with hmac d (input_hash dsha hash160 v (off + j) i u (sec_bytes true (dv_x e) (dv_y e))) (dv_x e) (dv_y e) (g_r g) (g_s g)) (sp_ders u) gs) ->
      length (concat gss) = length (entries us)).
    { clear. induction is as [|i is IH]; intros off [|u us] [|gs gss] L1 L2 OW A; try discriminate; [reflexivity|]. cbn [concat]. unfold entries in *. cbn [flat_map] in *. rewrite !app_length. apply Forall_app in OW as [O1 O2].
      f_equal; [apply (signatures_all _ _ _ _ (A 0%nat i u gs eq_refl eq_refl eq_refl) O1)|]. injection L1 as L1. injection L2 as L2. apply (IH (S off)); auto.
      intros j i' u' gs' N1 N2 N3. replace (S off + j)%nat with (off + S j)%nat by lia. apply (A (S j)); auto. }
    apply (X (s_ins v) 0%nat us gss); auto. }
  exists q, gss. split; [|auto]. unfold len in *. rewrite LC in E1. exact E1.
Qed.
(** From bytes to bytes. *)
Lemma told_ok : forall i u l u', map_tells dsha i u l u' -> Forall psig_ok (sp_sigs u) -> Forall psig_ok (sp_sigs u').
Proof.
  intros i u l u' T. induction T as [u|u e u1 l u2 E T IH]; intros F; [exact F|]. apply IH. destruct E; cbn [set_out set_redeem set_witness add_der add_sigs sp_sigs]; auto.
  apply Forall_app. split; auto.
Qed.
Lemma all_told_ok : forall is ms us, maps_tell dsha is ms us -> Forall (fun u => Forall psig_ok (sp_sigs u)) us.
Proof. intros is ms us T. induction T as [|i is m ms u us M T IH]; constructor; [apply (told_ok _ _ _ _ M); constructor|exact IH]. Qed.
Lemma with_ok : forall us gss, Forall (fun u => Forall psig_ok (sp_sigs u)) us -> Forall (Forall psig_ok) gss -> Forall (Forall psig_ok) (map sp_sigs (with_sigs us gss)).
Proof.
  induction us as [|u us IH]; intros [|g gss] F G; [constructor|constructor|constructor|]. unfold with_sigs. cbn [combine map fst snd add_sigs sp_sigs]. apply Forall_cons_iff in F as [F1 F2]. apply Forall_cons_iff in G as [G1 G2].
  constructor; [apply Forall_app; auto|apply IH; auto].
Qed.
Lemma knows_holds : forall p us, psbt_knows p v us -> psbt_holds p v (map sp_sigs us).
Proof.
  intros p us (HT & (outs & EO & LO) & ins & EI & LU & F). split; [exact HT|]. exists ins, outs. split; [exact EI|]. split; [exact EO|]. split; [exact LO|]. split; [rewrite map_length; exact LU|].
  clear - F. induction F as [|m u ms us (_ & _ & _ & _ & S) F IH]; [constructor|]. cbn [map]. constructor; auto.
Qed.
Theorem sign_written : forall rz rzs rks q global mi mo us rest p n r, draws rz rzs rks -> reusable dsha garbage q -> psbt_tx v -> fits_maps v global mi mo -> maps_tell dsha (s_ins v) mi us ->
  psbt_parse dsha garbage q (wire_psbt (wire_tx v) global (mi ++ mo) ++ rest) = Ok (p, n, r) -> ps_status p = DONE -> room_for_sigs us -> signable us ->
  exists p' m gss maps, psbt_sign_code dsha garbage hmac512 hash160 rz rzs rks p root = Ok (p', m) /\ all_signed dsha hash160 hmac hmac512 k c v us gss /\
    Forall2 (Forall2 psig_pair) (map sp_sigs (with_sigs us gss)) maps /\
    let w := wire_psbt (wire_tx v) [] (maps ++ repeat [] (length (s_outs v))) in
    psbt_length p' = Ok (len w) /\ serialize (psbt_to_stream p') (length w) 0 = Ok (len w, w).
Proof.
  intros rz rzs rks q global mi mo us rest p n r (RZ & RS & RK) RQ V FM T EP D RM (PR & BP).
  pose proof (parsed_knows dsha garbage q v global mi mo us rest p n r RQ V FM T EP D) as KN.
  destruct (sign_real K H C dsha hash160 hmac512 garbage rz rzs rks H20 H32 H64 RZ RS RK root v SR VL p us KN RM PR BP) as (p' & gss & E1 & A1 & OK & KN1 & _).
  pose proof V as ((TO & WO & NI & NOu & LW & PL) & NE).
  destruct (psbt_writes p' v (map sp_sigs (with_sigs us gss)) (knows_holds _ _ KN1) (carried_small v (proj1 V))) as (maps & F & _ & W); auto.
  { apply with_ok; auto. apply (all_told_ok _ _ _ T). }
  exists p', (len (concat gss) mod 256), gss, maps. split; [exact E1|]. split; [exact A1|]. split; [exact F|]. cbv zeta in *. destruct W as (W1 & W2). split; [exact W1|].
  rewrite W2 by lia. rewrite Nat.sub_diag. cbn [zeros repeat]. rewrite app_nil_r. reflexivity.
Qed.
End More.
Section Flat.
Variables (K H : list Z) (dsha hash160 : list Z -> list Z) (hmac512 : list Z -> list Z -> list Z) (garbage : list Z) (rz : list Z) (rzs rks : nat -> nat -> list Z) (root : hdpriv) (v : s_tx).
Notation hmac := (rfc2104 (fips_hash fips256 K H) 64).
Notation k := (hk_num root).
Notation c := (hk_chain root).
Hypothesis C : fips_constants fips256 K H.
Hypothesis SZ : hash_sizes dsha hash160 hmac512.
Hypothesis D : draws rz rzs rks.
Hypothesis SR : is_scalar (hk_num root).
Lemma flat_sign : 1 + len (s_ins v) + len (s_outs v) <= 255 -> forall p us, psbt_knows p v us -> room_for_sigs us -> signable hash160 hmac512 k c us ->
  exists p' gss, psbt_sign_code dsha garbage hmac512 hash160 rz rzs rks p root = Ok (p', len (concat gss) mod 256) /\
    all_signed dsha hash160 hmac hmac512 k c v us gss /\ psbt_knows p' v (with_sigs us gss) /\ exists ins, p' = ps_set_metas p (Some ins, ps_outs p).
Proof.
  intros VL p us KN RM (PR & BP). destruct SZ as (H32 & H20 & H64), D as (RZ & RS & RK).
  destruct (sign_real K H C dsha hash160 hmac512 garbage rz rzs rks H20 H32 H64 RZ RS RK root v SR VL p us KN RM PR BP) as (p' & gss & E & A & _ & KN' & X). exists p', gss. auto.
Qed.
Lemma flat_short : 1 + len (s_ins v) + len (s_outs v) <= 255 -> forall p us, psbt_knows p v us -> room_for_sigs us -> ~ paths_reach (wallet_fp hash160 k) (entries us) ->
  psbt_sign_code dsha garbage hmac512 hash160 rz rzs rks p root = UB.
Proof.
  intros VL p us KN RM PR. destruct SZ as (H32 & H20 & H64), D as (RZ & RS & RK).
  exact (sign_short K H C dsha hash160 hmac512 garbage rz rzs rks H20 H32 RZ RS RK root v SR VL p us KN RM PR).
Qed.
Lemma flat_again : 1 + len (s_ins v) + len (s_outs v) <= 255 -> forall rz' rzs' rks' p us, draws rz' rzs' rks' -> psbt_knows p v us ->
  Forall (fun u => len (sp_sigs u) + 2 * len (sp_ders u) <= 255) us -> signable hash160 hmac512 k c us ->
  exists p1 p2 gss n, psbt_sign_code dsha garbage hmac512 hash160 rz rzs rks p root = Ok (p1, n) /\ psbt_sign_code dsha garbage hmac512 hash160 rz' rzs' rks' p1 root = Ok (p2, n) /\
    all_signed dsha hash160 hmac hmac512 k c v us gss /\ psbt_knows p2 v (with_sigs us (map (fun gs => gs ++ gs) gss)).
Proof. intros VL. destruct SZ as (H32 & H20 & H64). intros. eapply sign_again; eauto. Qed.
Lemma flat_unrelated : 1 + len (s_ins v) + len (s_outs v) <= 255 -> forall rz' rzs' rks' p p' us us', draws rz' rzs' rks' -> psbt_knows p v us -> psbt_knows p' v us' ->
  Forall2 same_for_signing us us' -> room_for_sigs us -> room_for_sigs us' -> signable hash160 hmac512 k c us ->
  exists q q' gss n, psbt_sign_code dsha garbage hmac512 hash160 rz rzs rks p root = Ok (q, n) /\ psbt_sign_code dsha garbage hmac512 hash160 rz' rzs' rks' p' root = Ok (q', n) /\
    all_signed dsha hash160 hmac hmac512 k c v us gss /\ psbt_knows q v (with_sigs us gss) /\ psbt_knows q' v (with_sigs us' gss).
Proof. intros VL. destruct SZ as (H32 & H20 & H64). intros. eapply sign_unrelated; eauto. Qed.
Lemma same_refl : forall us, Forall2 same_for_signing us us.
Proof. induction us; constructor; auto. repeat split. left. reflexivity. Qed.
Lemma flat_same : 1 + len (s_ins v) + len (s_outs v) <= 255 -> forall rz' rzs' rks' p us, draws rz' rzs' rks' -> psbt_knows p v us -> room_for_sigs us -> signable hash160 hmac512 k c us ->
  exists q q' gss n, psbt_sign_code dsha garbage hmac512 hash160 rz rzs rks p root = Ok (q, n) /\ psbt_sign_code dsha garbage hmac512 hash160 rz' rzs' rks' p root = Ok (q', n) /\
    psbt_knows q v (with_sigs us gss) /\ psbt_knows q' v (with_sigs us gss).
Proof.
  intros VL rz' rzs' rks' p us D' KN RM SG. destruct (flat_unrelated VL rz' rzs' rks' p p us us D' KN KN (same_refl us) RM RM SG) as (q & q' & gss & n & E & E' & _ & A & B). exists q, q', gss, n. auto.
Qed.
Lemma flat_unknown : 1 + len (s_ins v) + len (s_outs v) <= 255 -> forall p us j i e d, psbt_knows p v us -> room_for_sigs us -> signable hash160 hmac512 k c us ->
  nth_error (s_ins v) j = Some i -> nth_error us j = Some (add_der nothing_known e) -> has_secret hmac512 (wallet_fp hash160 k) k c e d ->
  exists p' n g u', psbt_sign_code dsha garbage hmac512 hash160 rz rzs rks p root = Ok (p', n) /\ (exists us', psbt_knows p' v us' /\ nth_error us' j = Some u') /\ sp_sigs u' = [g] /\
    signed_with hmac d (dsha (legacy_preimage v j [] 1)) (dv_x e) (dv_y e) (g_r g) (g_s g).
Proof. intros VL. destruct SZ as (H32 & H20 & H64). intros. eapply sign_unknown; eauto. Qed.
Lemma flat_count : 1 + len (s_ins v) + len (s_outs v) <= 255 -> forall p us, psbt_knows p v us -> room_for_sigs us -> signable hash160 hmac512 k c us ->
  Forall (fun e => exists d, has_secret hmac512 (wallet_fp hash160 k) k c e d) (entries us) -> len (entries us) = 256 ->
  exists p' gss, psbt_sign_code dsha garbage hmac512 hash160 rz rzs rks p root = Ok (p', 0) /\ psbt_knows p' v (with_sigs us gss) /\ len (concat gss) = 256.
Proof.
  intros VL. destruct SZ as (H32 & H20 & H64). intros p us KN RM SG OW L. destruct (sign_count K H C dsha hash160 hmac512 garbage H20 H32 H64 root v SR VL rz rzs rks p us D KN RM SG OW) as (p' & gss & E & KN' & LC).
  exists p', gss. rewrite L in E. split; [exact E|]. split; [exact KN'|]. unfold len in *. rewrite LC. exact L.
Qed.
Lemma flat_written : forall q global mi mo us rest p n r, reusable dsha garbage q -> psbt_tx v -> fits_maps v global mi mo -> maps_tell dsha (s_ins v) mi us ->
  psbt_parse dsha garbage q (wire_psbt (wire_tx v) global (mi ++ mo) ++ rest) = Ok (p, n, r) -> ps_status p = DONE -> room_for_sigs us -> signable hash160 hmac512 k c us ->
  exists p' m gss maps, psbt_sign_code dsha garbage hmac512 hash160 rz rzs rks p root = Ok (p', m) /\ all_signed dsha hash160 hmac hmac512 k c v us gss /\
    Forall2 (Forall2 psig_pair) (map sp_sigs (with_sigs us gss)) maps /\
    let w := wire_psbt (wire_tx v) [] (maps ++ repeat [] (length (s_outs v))) in
    psbt_length p' = Ok (len w) /\ serialize (psbt_to_stream p') (length w) 0 = Ok (len w, w).
Proof. destruct SZ as (H32 & H20 & H64). intros. eapply sign_written; eauto. match goal with T : psbt_tx v |- _ => apply T end. Qed.
Lemma flat_asking : forall q global mi mo us rest p n r ty, reusable dsha garbage q -> psbt_tx v -> fits_maps v global (asking_type ty mi) mo -> maps_tell dsha (s_ins v) mi us ->
  psbt_parse dsha garbage q (wire_psbt (wire_tx v) global (asking_type ty mi ++ mo) ++ rest) = Ok (p, n, r) -> ps_status p = DONE -> room_for_sigs us -> signable hash160 hmac512 k c us ->
  exists p' m gss maps, psbt_sign_code dsha garbage hmac512 hash160 rz rzs rks p root = Ok (p', m) /\ all_signed dsha hash160 hmac hmac512 k c v us gss /\
    Forall2 (Forall2 psig_pair) (map sp_sigs (with_sigs us gss)) maps /\
    let w := wire_psbt (wire_tx v) [] (maps ++ repeat [] (length (s_outs v))) in
    psbt_length p' = Ok (len w) /\ serialize (psbt_to_stream p') (length w) 0 = Ok (len w, w).
Proof. intros q global mi mo us rest p n r ty RQ V FM T. apply (flat_written q global (asking_type ty mi) mo us rest p n r RQ V FM). apply maps_asking. exact T. Qed.
End Flat.
