(** PSBT::sign, for any way to multiply the generator and to sign that does what is expected of it. *)
From Coq Require Import Lia.
From Verif Require Import Base.Bytes Base.BytesFacts Spec.Codecs Spec.Wire Spec.Objects Spec.Keys Spec.Scalar Spec.Signature Spec.Point Spec.Sighash Spec.Curve Spec.Schemes Spec.PSBT Spec.PSBTSign
  Model.Conversion Model.Stream Model.Script Model.Tx Model.Sign Model.Signature Model.Point Model.HD Model.PointOps Model.PSBT Model.PSBTSign
  Proof.IntVarint Proof.ScriptFacts Proof.TxIo Proof.TxHash Proof.SignFacts Proof.SigFacts Proof.SigProps Proof.PointFacts Proof.PointProps Proof.PointChunks Proof.ScalarProps Proof.PsbtFacts Proof.PsbtParse Proof.PsbtWrite Proof.PsbtEntries.
Open Scope Z_scope.

Lemma hardened_eq : forall path, hardened_prefix path = hardened_part path.
Proof. induction path as [|i t IH]; [reflexivity|]. cbn [hardened_prefix hardened_part]. rewrite IH. reflexivity. Qed.
Lemma hardened_take : forall path, exists t, path = hardened_part path ++ t.
Proof.
  induction path as [|i t (r & IH)]; [exists []; reflexivity|]. cbn [hardened_part]. destruct (2^31 <=? i); [exists r; cbn [app]; f_equal; exact IH|exists (i :: t); reflexivity].
Qed.

Lemma wpkh_spec : forall s bs, script_holds s bs -> script_type_eqb (script_type_of s) P2WPKH = is_wpkh bs.
Proof.
  intros s bs H. pose proof (wpkh_type s bs H) as W. destruct (is_wpkh bs) eqn:E.
  - assert (X : exists h, length h = 20%nat /\ bs = 0 :: 20 :: h).
    { destruct bs as [|a [|b h]]; try discriminate. cbn [is_wpkh] in E. apply andb_prop in E as [E E3]. apply andb_prop in E as [E1 E2].
      apply Z.eqb_eq in E1, E2, E3. subst. exists h. split; auto. unfold len in E3. lia. }
    apply W in X. rewrite X. reflexivity.
  - destruct (script_type_of s) eqn:T; try reflexivity. exfalso. destruct (proj1 W eq_refl) as (h & L & ->). cbn [is_wpkh] in E. unfold len in E. rewrite L in E. discriminate E.
Qed.
Lemma script_long : forall s bs, script_holds s bs -> (1 <? script_length s) = match bs with [] => false | _ => true end.
Proof.
  intros s bs (_ & L & _ & S). unfold script_length, lenVarInt. rewrite L. pose proof (len_nonneg _ bs). destruct bs as [|a bs]; [reflexivity|]. rewrite len_cons in *. pose proof (len_nonneg _ bs).
  apply Z.ltb_lt. repeat match goal with |- context [if ?b then _ else _] => destruct b end; rewrite u64_id; lia.
Qed.
Lemma skipn_add : forall {A} a b (l : list A), skipn a (skipn b l) = skipn (a + b) l.
Proof. intros A a b. revert a. induction b as [|b IH]; intros a l; [rewrite Nat.add_0_r; reflexivity|]. destruct l as [|x l]; [rewrite !skipn_nil; reflexivity|]. rewrite Nat.add_succ_r. cbn [skipn]. apply IH. Qed.
Lemma signs_all_1 : signs_all 1.
Proof. repeat split. Qed.

Section Hash.
Variables (dsha hash160 : list Z -> list Z).
Hypothesis H20 : forall m, length (hash160 m) = 20%nat /\ bytes_ok (hash160 m).
Lemma sign_hash_ok : forall t v idx i m u sec, tx_holds t v -> len (s_ins v) + len (s_outs v) < 256 -> nth_error (s_ins v) idx = Some i ->
  txout_holds (im_out m) (sp_out u) -> script_holds (im_redeem m) (sp_redeem u) -> script_holds (im_witness m) (sp_witness u) ->
  sign_hash dsha hash160 t (Z.of_nat idx) m sec = Ok (input_hash dsha hash160 v idx i u sec).
Proof.
  intros t v idx i m u sec HT HL HI (A & _ & HS) HR HW. unfold sign_hash, input_hash. rewrite A.
  assert (IX : (idx < 256)%nat).
  { apply nth_error_Some_lt in HI || (pose proof (proj1 (nth_error_Some (s_ins v) idx) ltac:(congruence))). pose proof (len_nonneg _ (s_outs v)). unfold len in *. lia. }
  pose proof (len_nonneg _ (s_ins v)). pose proof (len_nonneg _ (s_outs v)). pose proof signs_all_1 as S1.
  rewrite (script_long _ _ HW). destruct (sp_witness u) as [|w0 w] eqn:EW.
  - rewrite (script_long _ _ HR). destruct (sp_redeem u) as [|r0 r] eqn:ER.
    + rewrite (wpkh_spec _ _ HS). destruct (is_wpkh (so_script (sp_out u))).
      * apply sigHashSegwit_ok; auto. apply p2pkh_holds; auto.
      * apply sigHash_ok; auto; lia.
    + rewrite (wpkh_spec _ _ HR). destruct (is_wpkh (r0 :: r)).
      * apply sigHashSegwit_ok; auto. apply p2pkh_holds; auto.
      * apply sigHash_ok; auto; lia.
  - apply sigHashSegwit_ok; auto.
Qed.
End Hash.

Lemma sig_entry_ok : forall pub sg g, psig_holds (pub, sg) g -> psig_ok g -> exists pair, psig_pair g pair /\ sig_entry pub sg = Ok (parsed_script (fst pair), parsed_script (snd pair)).
Proof.
  intros k s g (X & C & H) O. cbn [fst snd] in *. destruct (der_writes s _ _ H) as (d & D & LD & SL & _ & SW).
  set (pair := (2 :: sec_bytes (g_comp g) (g_x g) (g_y g), d ++ [1])). assert (PP : psig_pair g pair) by (exists d; auto).
  destruct (pair_of_sig g pair PP O) as ((_ & BK & LK & BV & LV) & KL & VL). exists pair. split; [exact PP|].
  pose proof (sec_len (g_comp g) (g_x g) (g_y g)) as SL2.
  assert (PL : 33 <= pt_length (g_comp g) <= 65) by (unfold pt_length; destruct (g_comp g); lia).
  unfold sig_entry. assert (PW := pt_slices_coords k (g_x g) (g_y g) X). rewrite C in PW.
  specialize (PW 65%nat 0 ltac:(lia)). cbn zeta in PW. cbn [Z.to_nat] in PW. rewrite skipn_O in PW.
  rewrite firstn_all2 in PW by (unfold len in *; lia). rewrite PW, bind_ok. cbn [fst snd]. rewrite SL2, u8_id by lia. cbv zeta.
  assert (K1 : firstn (Z.to_nat (1 + pt_length (g_comp g) + 1)) ((1 + pt_length (g_comp g)) :: 2 :: sec_bytes (g_comp g) (g_x g) (g_y g) ++ zeros (65 - length (sec_bytes (g_comp g) (g_x g) (g_y g)))) = wire_bytes (fst pair) ++ []).
  { rewrite app_nil_r, wire_short by lia. rewrite KL. unfold pair. cbn [fst]. change (?a :: 2 :: ?b ++ ?c) with ((a :: 2 :: b) ++ c). apply firstn_app_len. cbn [length]. unfold len in *. lia. }
  rewrite K1, script_parse_wire by auto. rewrite bind_ok. cbv beta. specialize (SW 99%nat 0 ltac:(lia)). cbn zeta in SW. cbn [Z.to_nat] in SW. rewrite skipn_O in SW.
  rewrite firstn_all2 in SW by (unfold len in *; lia). rewrite SW, bind_ok. cbv beta. cbn [fst snd]. rewrite u8_id by lia.
  assert (AS : aset ((1 + len d) :: d ++ zeros (99 - length d)) (1 + len d) SIGHASH_ALL = Ok ((1 + len d) :: (d ++ [1]) ++ skipn 1 (zeros (99 - length d)))).
  { unfold aset. destruct (Z.leb_spec 0 (1 + len d)); [|lia]. destruct (Z.ltb_spec (1 + len d) (len ((1 + len d) :: d ++ zeros (99 - length d)))).
    2:{ exfalso. unfold len in *. cbn [length] in *. rewrite app_length in *. unfold zeros in *. rewrite repeat_length in *. lia. }
    cbn [andb]. apply (f_equal Ok). replace (Z.to_nat (1 + len d)) with (S (length d)) by (unfold len; lia). cbn [set_nth]. f_equal.
    rewrite <- !app_assoc. destruct (99 - length d)%nat eqn:N; [unfold len in *; lia|]. cbn [zeros repeat app skipn]. rewrite set_mid. reflexivity. }
  rewrite AS, bind_ok. cbv beta.
  assert (V1 : firstn (Z.to_nat (1 + len d + 1)) ((1 + len d) :: (d ++ [1]) ++ skipn 1 (zeros (99 - length d))) = wire_bytes (snd pair) ++ []).
  { rewrite app_nil_r, wire_short by lia. unfold pair. cbn [snd]. rewrite len_app. change (len [1]) with 1. rewrite (Z.add_comm (len d)). change (?a :: ?b ++ ?c) with ((a :: b) ++ c). apply firstn_app_len. cbn [length]. rewrite app_length. cbn [length]. unfold len. lia. }
  rewrite V1, script_parse_wire by auto. rewrite bind_ok. reflexivity.
Qed.

Section Loop.
Variables (dsha : list Z -> list Z) (garbage : list Z) (hmac512 : list Z -> list Z -> list Z) (hash160 mulG : list Z -> list Z).
Variable signer : nat -> list Z -> list Z -> outcome signature.
Variable root : hdpriv.
(** What the calls are expected to do for the secrets that occur. *)
Variable secret : list Z -> Prop.
Variable made : list Z -> list Z -> Z -> Z -> Prop.
Hypothesis H20 : forall m, length (hash160 m) = 20%nat /\ bytes_ok (hash160 m).
Hypothesis H32 : forall m, word256 (dsha m).
Notation sk path := (hk_num (hk_derive hmac512 hash160 mulG root path)).
Notation fp := (hk_fingerprint hash160 mulG root).
Hypothesis SK : forall path, secret (sk path).
Hypothesis SG : forall n d h, secret d -> word256 h -> exists sg r s, signer n d h = Ok sg /\ sig_holds sg r s /\ made d h r s.
Variable v : s_tx.
Hypothesis VL : 1 + len (s_ins v) + len (s_outs v) <= 255.

Definition own (e : s_deriv) : Prop := dv_fp e = fp /\ mulG (sk (dv_path e)) = coords (dv_x e) (dv_y e).
Definition by_ (idx : nat) (i : s_txin) (u : s_input) (e : s_deriv) (g : s_psig) : Prop :=
  g_comp g = true /\ g_x g = dv_x e /\ g_y g = dv_y e /\
  made (sk (dv_path e)) (input_hash dsha hash160 v idx i u (sec_bytes true (dv_x e) (dv_y e))) (g_r g) (g_s g).
Definition the_cache (cp : list Z) : list Z * hdpriv := (cp, hk_derive hmac512 hash160 mulG root cp).
(** The account key when the entries [l] are still to come. *)
Definition acc_ok (cp : list Z) (a : account) (l : list s_deriv) : Prop := a = Some (the_cache cp) \/ a = None /\ first_part fp l = cp.
Definition reach (cp : list Z) (l : list s_deriv) : Prop := Forall (fun e => (length cp <= length (dv_path e))%nat) (of_wallet fp l).

Lemma input_hash_word : forall idx i u sec, word256 (input_hash dsha hash160 v idx i u sec).
Proof. intros. unfold input_hash. destruct (sp_witness u); [|apply H32]. destruct (is_wpkh _); apply H32. Qed.
Lemma of_wallet_mine : forall e l, dv_fp e = fp -> of_wallet fp (e :: l) = e :: of_wallet fp l.
Proof. intros e l E. unfold of_wallet. cbn [filter]. destruct (list_eq_dec Z.eq_dec (dv_fp e) fp); [reflexivity|contradiction]. Qed.
Lemma of_wallet_other : forall e l, dv_fp e <> fp -> of_wallet fp (e :: l) = of_wallet fp l.
Proof. intros e l E. unfold of_wallet. cbn [filter]. destruct (list_eq_dec Z.eq_dec (dv_fp e) fp); [contradiction|reflexivity]. Qed.
Lemma acc_mine : forall cp a e l, acc_ok cp a (e :: l) -> dv_fp e = fp -> cached hmac512 hash160 mulG root a (dv_path e) = the_cache cp.
Proof.
  intros cp a e l [-> | (-> & F)] E; [reflexivity|]. unfold first_part in F. rewrite of_wallet_mine in F by auto. cbn [cached]. rewrite hardened_eq, F. reflexivity.
Qed.
Lemma acc_other : forall cp a e l, acc_ok cp a (e :: l) -> dv_fp e <> fp -> acc_ok cp a l.
Proof. intros cp a e l [-> | (-> & F)] E; [left; reflexivity|right]. split; [reflexivity|]. unfold first_part in *. rewrite of_wallet_other in F by auto. exact F. Qed.
Lemma secret_ok : forall cp path, (length cp <= length path)%nat -> sign_secret hmac512 hash160 mulG root (the_cache cp) path = Ok (sk path).
Proof.
  intros cp path L. unfold sign_secret, the_cache. cbn [fst snd]. destruct (Z.ltb_spec (len path) (len cp)) as [H|_]; [unfold len in H; lia|]. f_equal. destruct (list_eqb cp (firstn (length cp) path)) eqn:E; [|reflexivity].
  apply list_eqb_eq in E. f_equal. unfold hk_derive. rewrite <- fold_left_app. f_equal. rewrite E at 1. apply firstn_skipn.
Qed.
Lemma secret_short : forall cp path, (length path < length cp)%nat -> sign_secret hmac512 hash160 mulG root (the_cache cp) path = UB.
Proof. intros cp path L. unfold sign_secret, the_cache. cbn [fst snd]. destruct (Z.ltb_spec (len path) (len cp)) as [H|H]; [reflexivity|unfold len in H; lia]. Qed.
Lemma sec_true : forall x y, sec_of (coords x y) = sec_bytes true x y.
Proof.
  intros x y. rewrite <- pt_bytes_coords. reflexivity.
Qed.
Lemma u8_step : forall n, u8 (u8 n + 1) = u8 (n + 1).
Proof. intros n. unfold u8. apply Z.add_mod_idemp_l. lia. Qed.

(** What an input knows apart from its signatures. *)
Definition knows (m : inmeta) (u : s_input) : Prop :=
  txout_holds (im_out m) (sp_out u) /\ script_holds (im_redeem m) (sp_redeem u) /\ script_holds (im_witness m) (sp_witness u).
Definition more_sigs (m : inmeta) (l : list (ecpoint * signature)) : inmeta :=
  mkInMeta (im_out m) (im_ders m) (im_redeem m) (im_witness m) (im_sigs m ++ l).
Lemma more_nil : forall m, more_sigs m [] = m.
Proof. intros [a b c d e]. unfold more_sigs. cbn [im_out im_ders im_redeem im_witness im_sigs]. rewrite app_nil_r. reflexivity. Qed.
Lemma more_more : forall m a b, more_sigs (more_sigs m a) b = more_sigs m (a ++ b).
Proof. intros. unfold more_sigs. cbn [im_out im_ders im_redeem im_witness im_sigs]. rewrite app_assoc. reflexivity. Qed.
Notation with_ins p l := (ps_set_metas p (Some l, ps_outs p)).

Section Input.
Variables (p : psbt) (pre post : list inmeta) (m0 : inmeta) (u : s_input) (idx : nat) (i : s_txin).
Hypothesis HT : tx_holds (ps_tx p) v.
Hypothesis HP : length pre = idx.
Hypothesis HI : nth_error (s_ins v) idx = Some i.
Hypothesis HK : knows m0 u.
Notation state added := (with_ins p (pre ++ more_sigs m0 added :: post)).
Definition sgn (added : list (ecpoint * signature)) (n : Z) (a : account) (c : nat) : signing := mkSigning (state added) (u8 n) a c.
Notation entry := (sign_entry dsha garbage hmac512 hash160 mulG signer root (Z.of_nat idx)).

Lemma entry_other : forall d e added n a c, deriv_holds d e -> dv_fp e <> fp -> entry (sgn added n a c) d = Ok (sgn added n a c).
Proof.
  intros d e added n a c (S & _ & _ & F & _ & _) NE. unfold sign_entry. rewrite S. cbn [negb]. destruct (list_eqb fp (d_fp d)) eqn:E; [|reflexivity].
  apply list_eqb_eq in E. congruence.
Qed.
Lemma entry_short : forall d e added n a c cp l, deriv_holds d e -> dv_fp e = fp -> acc_ok cp a (e :: l) -> (length (dv_path e) < length cp)%nat -> entry (sgn added n a c) d = UB.
Proof.
  intros d e added n a c cp l (S & _ & _ & F & PA & _) E A L. unfold sign_entry. rewrite S. cbn [negb]. rewrite (proj2 (list_eqb_eq _ _)) by congruence. cbn [sn_account sgn].
  rewrite PA, (acc_mine cp a e l A E), secret_short by auto. reflexivity.
Qed.
Lemma entry_not : forall d e added n a c cp l, deriv_holds d e -> dv_fp e = fp -> acc_ok cp a (e :: l) -> (length cp <= length (dv_path e))%nat -> ~ own e ->
  entry (sgn added n a c) d = Ok (sgn added n (Some (the_cache cp)) c).
Proof.
  intros d e added n a c cp l (S & X & _ & F & PA & _) E A L NO. unfold sign_entry. rewrite S. cbn [negb]. rewrite (proj2 (list_eqb_eq _ _)) by congruence. cbn [sn_account sgn].
  rewrite PA, (acc_mine cp a e l A E), secret_ok, bind_ok by auto. cbv beta. unfold pt_eq. cbn [pt_xy]. rewrite X.
  destruct (list_eq_dec Z.eq_dec (coords (dv_x e) (dv_y e)) (mulG (sk (dv_path e)))) as [Q|Q]; [|reflexivity]. exfalso. apply NO. split; auto.
Qed.
Lemma entry_own : forall d e added n a c cp l, deriv_holds d e -> acc_ok cp a (e :: l) -> (length cp <= length (dv_path e))%nat -> own e ->
  len (im_sigs m0 ++ added) < 255 ->
  exists x g, by_ idx i u e g /\ psig_ok g /\ psig_holds x g /\ entry (sgn added n a c) d = Ok (sgn (added ++ [x]) (n + 1) (Some (the_cache cp)) (S c)).
Proof.
  intros d e added n a c cp l (S & X & OC & F & PA & _) A L (E & O) LS. unfold sign_entry. rewrite S. cbn [negb]. rewrite (proj2 (list_eqb_eq _ _)) by congruence. cbn [sn_account sgn].
  rewrite PA, (acc_mine cp a e l A E), secret_ok, bind_ok by auto. cbv beta. unfold pt_eq. cbn [pt_xy]. rewrite X, O. destruct (list_eq_dec Z.eq_dec _ _) as [_|Q]; [|congruence].
  unfold sgn at 1 2 3 4 5 6. cbn [sn_psbt ps_set_metas ps_ins fst ps_tx]. assert (IL : Z.of_nat idx = len pre) by (unfold len; lia). rewrite at_app by auto. rewrite bind_ok. cbv beta. rewrite sec_true.
  destruct HK as (K1 & K2 & K3). rewrite (sign_hash_ok dsha hash160 H20 (ps_tx p) v idx i (more_sigs m0 added) u) by (auto; lia). rewrite bind_ok. cbv beta. cbn [sn_calls].
  set (h := input_hash _ _ _ _ _ _ _). destruct (SG c (sk (dv_path e)) h (SK _) (input_hash_word _ _ _ _)) as (sg & r & s & ES & HS & M). rewrite ES, bind_ok. cbv beta.
  set (g := {| g_comp := true; g_x := dv_x e; g_y := dv_y e; g_r := r; g_s := s |}).
  assert (PH : psig_holds (mkPt (coords (dv_x e) (dv_y e)) true DONE 0, sg) g) by (split; [reflexivity|split; [reflexivity|exact HS]]).
  assert (PO : psig_ok g).
  { split; [exact OC|]. destruct HS as (L1 & B1 & <- & L2 & B2 & <-). cbn [g_r g_s g]. split; [apply (number_range (sg_r sg)); split; auto|apply (number_range (sg_s sg)); split; auto]. }
  destruct (sig_entry_ok _ _ _ PH PO) as (pair & PP & EP). rewrite EP, bind_ok. cbv beta. cbn [fst snd].
  destruct (holds_counts _ _ HT) as (CI & CO). assert (IX : (idx < length (s_ins v))%nat) by (apply nth_error_Some; congruence).
  assert (IX2 : Z.of_nat idx < len (s_ins v)) by (unfold len; lia). pose proof (len_nonneg _ (s_outs v)).
  assert (EM : ps_metas (state added) = (Some (pre ++ more_sigs m0 added :: post), ps_outs p)) by reflexivity.
  unfold psbt_add. cbn [ps_tx ps_set_metas fst snd]. rewrite EM, u8_id by lia.
  destruct (nth_error (t_ins (ps_tx p)) idx) as [ti|] eqn:ETI; [|apply nth_error_None in ETI; lia]. apply nth_error_split in ETI as (prei & posti & EI & LI).
  destruct (pair_of_sig g pair PP PO) as (PK & _ & _). destruct pair as [k va]. cbn [fst snd].
  rewrite (add_in dsha garbage (ps_tx p) pre (more_sigs m0 added) post (ps_outs p) prei ti posti k va (Z.of_nat idx + 1)).
  2: exact EI. 2: (unfold len; lia). 2: lia. 2:{ unfold sections_of, len in *. rewrite CI, CO. lia. } 2: exact PK.
  destruct (entry_sig dsha garbage (more_sigs m0 added) ti g (k, va) PP PO LS) as (x & XH & XE). rewrite XE, bind_ok. cbv beta. cbn [fst snd]. rewrite bind_ok. cbv beta. rewrite bind_ok. cbv beta. cbn [fst snd].
  exists x, g. split; [repeat split; exact M|]. split; [exact PO|]. split; [exact XH|]. unfold sgn. cbn [sn_count]. rewrite u8_step. f_equal. f_equal.
  rewrite <- more_more. reflexivity.
Qed.
Lemma own_dec : forall e, own e \/ ~ own e.
Proof.
  intros e. unfold own. destruct (list_eq_dec Z.eq_dec (dv_fp e) fp) as [A|A]; [|right; tauto].
  destruct (list_eq_dec Z.eq_dec (mulG (sk (dv_path e))) (coords (dv_x e) (dv_y e))); tauto.
Qed.
Lemma entries_ok : forall ds es, Forall2 deriv_holds ds es -> forall added n a c cp l, acc_ok cp a (es ++ l) -> reach cp es ->
  len (im_sigs m0 ++ added) + len es <= 255 ->
  exists xs gs a', signatures own (by_ idx i u) es gs /\ Forall psig_ok gs /\ Forall2 psig_holds xs gs /\ acc_ok cp a' l /\
    sign_entries dsha garbage hmac512 hash160 mulG signer root (Z.of_nat idx) (sgn added n a c) ds = Ok (sgn (added ++ xs) (n + len gs) a' (c + length gs)).
Proof.
  induction 1 as [|d e ds es D F IH]; intros added n a c cp l A R LS.
  - exists [], [], a. cbn [sign_entries app length]. rewrite app_nil_r, Nat.add_0_r. change (len (@nil s_psig)) with 0. rewrite Z.add_0_r. repeat split; auto; constructor.
  - cbn [sign_entries]. rewrite len_cons in LS. pose proof (len_nonneg _ es). cbn [app] in A. unfold reach in R. destruct (list_eq_dec Z.eq_dec (dv_fp e) fp) as [E|E].
    + rewrite of_wallet_mine in R by auto. apply Forall_cons_iff in R as [R1 R2]. destruct (own_dec e) as [O|O].
      * destruct (entry_own d e added n a c cp (es ++ l) D A R1 O ltac:(lia)) as (x & g & B & PO & PH & EE). rewrite EE, bind_ok. cbv beta.
        destruct (IH (added ++ [x]) (n + 1) (Some (the_cache cp)) (S c) cp l (or_introl eq_refl) R2) as (xs & gs & a' & S1 & S2 & S3 & S4 & S5).
        { rewrite app_assoc, len_app. change (len [x]) with 1. lia. }
        rewrite S5. exists (x :: xs), (g :: gs), a'. split; [constructor 3; auto|]. split; [constructor; auto|]. split; [constructor; auto|]. split; [exact S4|].
        rewrite <- app_assoc. cbn [app length]. rewrite len_cons. replace (n + 1 + len gs) with (n + (1 + len gs)) by lia. replace (S c + length gs)%nat with (c + S (length gs))%nat by lia. reflexivity.
      * rewrite (entry_not d e added n a c cp (es ++ l) D E A R1 O), bind_ok. cbv beta.
        destruct (IH added n (Some (the_cache cp)) c cp l (or_introl eq_refl) R2 ltac:(lia)) as (xs & gs & a' & S1 & S2 & S3 & S4 & S5).
        rewrite S5. exists xs, gs, a'. split; [constructor 2; auto|]. auto.
    + rewrite of_wallet_other in R by auto. rewrite (entry_other d e) by auto. rewrite bind_ok. cbv beta.
      destruct (IH added n a c cp l (acc_other _ _ _ _ A E) R ltac:(lia)) as (xs & gs & a' & S1 & S2 & S3 & S4 & S5).
      rewrite S5. exists xs, gs, a'. split; [constructor 2; auto; intros (Q & _); auto|]. auto.
Qed.
Lemma acc_reach : forall cp a e l, acc_ok cp a (e :: l) -> dv_fp e = fp -> acc_ok cp (Some (the_cache cp)) l.
Proof. intros. left. reflexivity. Qed.
(** An entry whose path is too short. *)
Lemma entries_short : forall ds es, Forall2 deriv_holds ds es -> forall added n a c cp l, acc_ok cp a (es ++ l) -> ~ reach cp es ->
  len (im_sigs m0 ++ added) + len es <= 255 ->
  sign_entries dsha garbage hmac512 hash160 mulG signer root (Z.of_nat idx) (sgn added n a c) ds = UB.
Proof.
  induction 1 as [|d e ds es D F IH]; intros added n a c cp l A R LS; [exfalso; apply R; constructor|].
  cbn [sign_entries]. rewrite len_cons in LS. pose proof (len_nonneg _ es). cbn [app] in A. unfold reach in R. destruct (list_eq_dec Z.eq_dec (dv_fp e) fp) as [E|E].
  - rewrite of_wallet_mine in R by auto. destruct (le_lt_dec (length cp) (length (dv_path e))) as [R1|R1].
    + assert (R2 : ~ reach cp es) by (intros Q; apply R; constructor; auto). destruct (own_dec e) as [O|O].
      * destruct (entry_own d e added n a c cp (es ++ l) D A R1 O ltac:(lia)) as (x & g & B & PO & PH & EE). rewrite EE, bind_ok. cbv beta.
        apply (IH (added ++ [x]) (n + 1) (Some (the_cache cp)) (S c) cp l (or_introl eq_refl) R2). rewrite app_assoc, len_app. change (len [x]) with 1. lia.
      * rewrite (entry_not d e added n a c cp (es ++ l) D E A R1 O), bind_ok. cbv beta. apply (IH added n (Some (the_cache cp)) c cp l (or_introl eq_refl) R2 ltac:(lia)).
    + rewrite (entry_short d e added n a c cp (es ++ l)) by auto. reflexivity.
  - rewrite of_wallet_other in R by auto. rewrite (entry_other d e) by auto. rewrite bind_ok. cbv beta. apply (IH added n a c cp l (acc_other _ _ _ _ A E) R ltac:(lia)).
Qed.
End Input.

Notation all_ders := entries.
Lemma of_wallet_app : forall a b, of_wallet fp (a ++ b) = of_wallet fp a ++ of_wallet fp b.
Proof. intros. apply filter_app. Qed.
Lemma reach_app : forall cp a b, reach cp (a ++ b) <-> reach cp a /\ reach cp b.
Proof. intros. unfold reach. rewrite of_wallet_app. apply Forall_app. Qed.
Lemma set_set : forall p a b c d, ps_set_metas (ps_set_metas p (a, b)) (c, d) = ps_set_metas p (c, d).
Proof. reflexivity. Qed.
Notation full := room_for_sigs.
Lemma sigs_len : forall m u, input_holds m u -> len (im_sigs m) = len (sp_sigs u).
Proof. intros m u (_ & _ & _ & _ & H). unfold len. rewrite (F2_len _ _ _ H). reflexivity. Qed.
Lemma input_more : forall m u xs gs, input_holds m u -> Forall2 psig_holds xs gs -> input_holds (more_sigs m xs) (add_sigs u gs).
Proof. intros m u xs gs (A & B & C & D & E) H. repeat split; try tauto; try apply A; try apply B; try apply C. cbn [more_sigs im_sigs add_sigs sp_sigs]. apply Forall2_app; auto. Qed.
Lemma inputs_ok : forall is idx us ms pre p n a c cp, tx_holds (ps_tx p) v -> skipn idx (s_ins v) = is -> length us = length is -> Forall2 input_holds ms us -> full us ->
  length pre = idx -> acc_ok cp a (all_ders us) -> reach cp (all_ders us) ->
  exists gss ms' a', length gss = length us /\ Forall (Forall psig_ok) gss /\ Forall2 input_holds ms' (with_sigs us gss) /\
    (forall j i u gs, nth_error is j = Some i -> nth_error us j = Some u -> nth_error gss j = Some gs -> signatures own (by_ (idx + j) i u) (sp_ders u) gs) /\
    sign_inputs dsha garbage hmac512 hash160 mulG signer root (length is) (Z.of_nat idx) (mkSigning (with_ins p (pre ++ ms)) (u8 n) a c) =
    Ok (mkSigning (with_ins p (pre ++ ms')) (u8 (n + len (concat gss))) a' (c + length (concat gss))).
Proof.
  induction is as [|i is IH]; intros idx us ms pre p n a c cp HT HI HL HM HF HP A R.
  - destruct us; [|discriminate]. inversion HM; subst. exists [], [], a. cbn [length with_sigs combine map concat sign_inputs]. change (len (@nil s_psig)) with 0. rewrite Z.add_0_r, Nat.add_0_r. repeat split; auto. intros [|j]; discriminate.
  - destruct us as [|u us]; [discriminate|]. inversion HM as [|m ? ms0 ? M1 M2]; subst ms. subst. apply Forall_cons_iff in HF as [F1 F2]. cbn [entries flat_map] in A, R. apply reach_app in R as [R1 R2].
    assert (NI : nth_error (s_ins v) (length pre) = Some i) by (rewrite <- (firstn_skipn (length pre) (s_ins v)), HI, nth_error_app2; rewrite firstn_length; replace (Nat.min (length pre) (length (s_ins v))) with (length pre); try lia; [rewrite Nat.sub_diag; reflexivity| |]; assert (length (skipn (length pre) (s_ins v)) = S (length is)) as Q by (rewrite HI; reflexivity); rewrite skipn_length in Q; lia).
    cbn [length sign_inputs]. cbn [sn_psbt ps_ins ps_set_metas fst]. rewrite at_app by (unfold len; lia). rewrite bind_ok. cbv beta.
    pose proof M1 as (K1 & K2 & K3 & K4 & K5).
    destruct (entries_ok p pre ms0 m u (length pre) i HT eq_refl NI (conj K1 (conj K2 K3)) _ _ K4 [] n a c cp (all_ders us) A R1) as (xs & gs & a1 & S1 & S2 & S3 & S4 & S5).
    { rewrite app_nil_r, (sigs_len m u M1). exact F1. }
    unfold sgn in S5. rewrite more_nil in S5. cbn [app] in S5. rewrite S5, bind_ok. cbv beta.
    destruct (IH (S (length pre)) us ms0 (pre ++ [more_sigs m xs]) p (n + len gs) a1 (c + length gs)%nat cp) as (gss & ms' & a' & T1 & T2 & T3 & T4 & T5); auto.
    { replace (S (length pre)) with (1 + length pre)%nat by lia. rewrite <- skipn_add, HI. reflexivity. }
    { rewrite app_length. cbn [length]. lia. }
    rewrite <- !app_assoc in T5. cbn [app] in T5. replace (Z.of_nat (length pre) + 1) with (Z.of_nat (S (length pre))) by lia. rewrite T5.
    exists (gs :: gss), (more_sigs m xs :: ms'), a'. split; [cbn [length]; lia|]. split; [constructor; auto|]. split; [cbn [with_sigs combine map fst snd]; constructor; [apply input_more; auto|exact T3]|].
    split.
    { intros [|j] i' u' gs' E1 E2 E3; cbn [nth_error] in *; [injection E1 as <-; injection E2 as <-; injection E3 as <-; rewrite Nat.add_0_r; exact S1|]. replace (length pre + S j)%nat with (S (length pre) + j)%nat by lia. eapply T4; eauto. }
    cbn [concat]. rewrite len_app, app_length, Z.add_assoc, Nat.add_assoc. reflexivity.
Qed.
Lemma reach_dec : forall cp l, reach cp l \/ ~ reach cp l.
Proof.
  intros cp l. unfold reach. induction (of_wallet fp l) as [|e t [IH|IH]]; [left; constructor| |right; intros Q; apply IH; apply Forall_inv_tail in Q; exact Q].
  destruct (le_lt_dec (length cp) (length (dv_path e))); [left; constructor; auto|right; intros Q; apply Forall_inv in Q; lia].
Qed.
Lemma inputs_short : forall is idx us ms pre p n a c cp, tx_holds (ps_tx p) v -> skipn idx (s_ins v) = is -> length us = length is -> Forall2 input_holds ms us -> full us ->
  length pre = idx -> acc_ok cp a (all_ders us) -> ~ reach cp (all_ders us) ->
  sign_inputs dsha garbage hmac512 hash160 mulG signer root (length is) (Z.of_nat idx) (mkSigning (with_ins p (pre ++ ms)) (u8 n) a c) = UB.
Proof.
  induction is as [|i is IH]; intros idx us ms pre p n a c cp HT HI HL HM HF HP A R.
  - destruct us; [|discriminate]. exfalso. apply R. constructor.
  - destruct us as [|u us]; [discriminate|]. inversion HM as [|m ? ms0 ? M1 M2]; subst ms. subst. apply Forall_cons_iff in HF as [F1 F2]. cbn [entries flat_map] in A, R.
    assert (NI : nth_error (s_ins v) (length pre) = Some i) by (rewrite <- (firstn_skipn (length pre) (s_ins v)), HI, nth_error_app2; rewrite firstn_length; replace (Nat.min (length pre) (length (s_ins v))) with (length pre); try lia; [rewrite Nat.sub_diag; reflexivity| |]; assert (length (skipn (length pre) (s_ins v)) = S (length is)) as Q by (rewrite HI; reflexivity); rewrite skipn_length in Q; lia).
    cbn [length sign_inputs]. cbn [sn_psbt ps_ins ps_set_metas fst]. rewrite at_app by (unfold len; lia). rewrite bind_ok. cbv beta.
    pose proof M1 as (K1 & K2 & K3 & K4 & K5). assert (SL : len (im_sigs m ++ []) + len (sp_ders u) <= 255) by (rewrite app_nil_r, (sigs_len m u M1); exact F1).
    destruct (reach_dec cp (sp_ders u)) as [R1|R1].
    + destruct (entries_ok p pre ms0 m u (length pre) i HT eq_refl NI (conj K1 (conj K2 K3)) _ _ K4 [] n a c cp (all_ders us) A R1 SL) as (xs & gs & a1 & S1 & S2 & S3 & S4 & S5).
      unfold sgn in S5. rewrite more_nil in S5. cbn [app] in S5. rewrite S5, bind_ok. cbv beta.
      assert (T5 := IH (S (length pre)) us ms0 (pre ++ [more_sigs m xs]) p (n + len gs) a1 (c + length gs)%nat cp).
      rewrite <- !app_assoc in T5. cbn [app] in T5. replace (Z.of_nat (length pre) + 1) with (Z.of_nat (S (length pre))) by lia. apply T5; auto.
      { replace (S (length pre)) with (1 + length pre)%nat by lia. rewrite <- skipn_add, HI. reflexivity. }
      { rewrite app_length. cbn [length]. lia. }
      { intros Q. apply R. apply reach_app. auto. }
    + assert (S5 := entries_short p pre ms0 m u (length pre) i HT eq_refl NI (conj K1 (conj K2 K3)) _ _ K4 [] n a c cp (all_ders us) A R1 SL).
      unfold sgn in S5. rewrite more_nil in S5. rewrite S5. reflexivity.
Qed.
Lemma with_same : forall p ins, ps_ins p = Some ins -> with_ins p ins = p.
Proof. intros [k va se la t im om st n] ins E. cbn [ps_ins] in E. subst im. reflexivity. Qed.
Theorem sign_generic : forall p us, psbt_knows p v us -> full us -> paths_reach fp (all_ders us) ->
  exists p' gss, psbt_sign dsha garbage hmac512 hash160 mulG signer p root = Ok (p', len (concat gss) mod 256) /\
    length gss = length us /\ Forall (Forall psig_ok) gss /\ psbt_knows p' v (with_sigs us gss) /\ (exists ins, p' = with_ins p ins) /\
    (forall j i u gs, nth_error (s_ins v) j = Some i -> nth_error us j = Some u -> nth_error gss j = Some gs -> signatures own (by_ j i u) (sp_ders u) gs).
Proof.
  intros p us (HT & HO & ins & EI & LI & F) HF R. destruct (holds_counts _ _ HT) as (CI & CO).
  destruct (inputs_ok (s_ins v) 0 us ins [] p 0 None 0 (first_part fp (all_ders us)) HT eq_refl LI F HF eq_refl (or_intror (conj eq_refl eq_refl)) R) as (gss & ms' & a' & L & OK & F' & SG' & E).
  unfold psbt_sign. rewrite CI. cbn [app Z.of_nat] in E. rewrite (with_same p ins EI) in E. change (u8 0) with 0 in E. rewrite E, bind_ok. cbv beta. cbn [sn_psbt sn_count].
  exists (with_ins p ms'), gss. split; [reflexivity|]. split; [exact L|]. split; [exact OK|].
  split; [|split; [exists ms'; reflexivity|exact SG']]. split; [exact HT|]. split; [exact HO|]. exists ms'. split; [reflexivity|]. split; [|exact F'].
  unfold with_sigs. rewrite map_length, combine_length, L, Nat.min_id. exact LI.
Qed.
Theorem sign_generic_short : forall p us, psbt_knows p v us -> full us -> ~ paths_reach fp (all_ders us) ->
  psbt_sign dsha garbage hmac512 hash160 mulG signer p root = UB.
Proof.
  intros p us (HT & HO & ins & EI & LI & F) HF R. destruct (holds_counts _ _ HT) as (CI & CO).
  assert (E := inputs_short (s_ins v) 0 us ins [] p 0 None 0 (first_part fp (all_ders us)) HT eq_refl LI F HF eq_refl (or_intror (conj eq_refl eq_refl)) R).
  unfold psbt_sign. rewrite CI. cbn [app Z.of_nat] in E. rewrite (with_same p ins EI) in E. change (u8 0) with 0 in E. rewrite E. reflexivity.
Qed.
End Loop.
