(** What a PSBT object writes from the beginning into enough room. *)
From Coq Require Import Lia.
From Verif Require Import Base.Bytes Base.BytesFacts Spec.Codecs Spec.Wire Spec.Objects Spec.Signature Spec.Point Spec.PSBT
  Model.Conversion Model.Stream Model.Script Model.Tx Model.Signature Model.Point Model.PSBT
  Proof.IntVarint Proof.StreamFacts Proof.ScriptFacts Proof.TxIo Proof.TxSer Proof.TxProps Proof.SigProps Proof.PointFacts Proof.PointProps Proof.PointChunks Proof.PsbtFacts.
Open Scope Z_scope.

Definition room (c : option nat) (k : nat) : Prop := match c with None => True | Some n => (k <= n)%nat end.
Definition emits (base : Z) (bs : list Z) (f : wst -> outcome wst) : Prop :=
  forall w, w_pos w = base -> room (w_cap w) (length bs) -> f w = Ok (w_adv w bs).
Lemma adv_pos : forall w bs, w_pos (w_adv w bs) = w_pos w + len bs.
Proof. reflexivity. Qed.
Lemma adv_room : forall w a k, room (w_cap w) (length a + k) -> room (w_cap (w_adv w a)) k.
Proof. intros w a k. unfold w_adv. cbn [w_cap]. destruct (w_cap w); cbn [room]; lia. Qed.
Lemma room_le : forall c a b, (a <= b)%nat -> room c b -> room c a.
Proof. intros [n|]; cbn [room]; auto. lia. Qed.
Lemma room_available : forall w k, (1 <= k)%nat -> room (w_cap w) k -> w_available w = true.
Proof. intros w k H. unfold w_available. destruct (w_cap w) as [[|n]|]; cbn [room]; auto. lia. Qed.
Ltac wr R := solve [auto | lia | rewrite ?adv_pos, ?len_cons; change (len (@nil Z)) with 0; lia | cbn [length]; unfold len in *; lia
  | eapply room_le; [|exact R]; cbn [length]; lia | apply adv_room; exact R].
Lemma emits_seq : forall base a b f g, emits base a f -> emits (base + len a) b g -> emits base (a ++ b) (fun w => let! w1 := f w in g w1).
Proof.
  intros base a b f g F G w P R. rewrite app_length in R. rewrite F by (solve [auto | eapply room_le; [|exact R]; lia]). rewrite bind_ok. cbv beta.
  rewrite G by (rewrite ?adv_pos; try lia; apply adv_room; auto). rewrite w_adv_app. reflexivity.
Qed.
Lemma writes_emits : forall base bs f, writes base bs f -> emits base bs f.
Proof.
  intros base bs f W w P R. rewrite W by lia. rewrite P, Z.sub_diag. change (Z.to_nat 0) with 0%nat. cbn [skipn].
  unfold wtake. destruct (w_cap w) as [n|]; auto. rewrite firstn_all2 by auto. reflexivity.
Qed.
Lemma emits_while : forall fuel base bs ser, serializes ser bs -> 0 <= base -> base + len bs < 2^64 -> (length bs <= fuel)%nat ->
  emits base bs (write_while fuel base (len bs) ser).
Proof.
  intros fuel base bs ser S B L F w P R.
  assert (Stop : forall f w, w_pos w = base + len bs -> write_while f base (len bs) ser w = Ok w).
  { intros f w' P'. destruct f; cbn [write_while]; rewrite P', Z.ltb_irrefl, andb_false_r; reflexivity. }
  destruct bs as [|b t] eqn:E; [change (len (@nil Z)) with 0 in *; rewrite w_adv_nil; apply Stop; lia|]. rewrite <- E in *.
  assert (1 <= length bs)%nat by (rewrite E; cbn; lia).
  destruct fuel as [|f]; [lia|]. cbn [write_while]. rewrite (room_available _ _ H R), P.
  destruct (Z.ltb_spec base (base + len bs)); [|unfold len in *; lia]. cbn [andb].
  rewrite (writes_emits _ _ _ (writes_obj base bs ser S B L)) by auto. rewrite bind_ok. cbv beta. apply Stop. rewrite adv_pos. lia.
Qed.
Lemma emits_rel : forall arr n fuel base, len arr < 2^63 -> n = len arr -> (length arr <= fuel)%nat ->
  emits base arr (write_rel fuel base n arr).
Proof.
  intros arr n fuel base L -> F w P R.
  assert (Q : forall k fuel w, (k <= length arr)%nat -> (k <= fuel)%nat -> w_pos w = base + len arr - Z.of_nat k -> room (w_cap w) k ->
    write_rel fuel base (len arr) arr w = Ok (w_adv w (skipn (length arr - k) arr))).
  { clear w P R fuel F. induction k as [|k IH]; intros fuel w K F P R.
    - replace (length arr - 0)%nat with (length arr) by lia. rewrite skipn_all, w_adv_nil.
      assert (E : u64 (w_pos w - base) = len arr) by (rewrite u64_id; unfold len in *; lia).
      destruct fuel; cbn [write_rel]; rewrite E, Z.ltb_irrefl, andb_false_r; reflexivity.
    - destruct fuel as [|f]; [lia|]. cbn [write_rel]. rewrite (room_available _ (S k) ltac:(lia) R).
      assert (E : u64 (w_pos w - base) = Z.of_nat (length arr - S k)) by (rewrite u64_id; unfold len in *; lia). rewrite E.
      destruct (Z.ltb_spec (Z.of_nat (length arr - S k)) (len arr)); [|unfold len in *; lia]. cbn [andb]. unfold aget.
      destruct (Z.leb_spec 0 (Z.of_nat (length arr - S k))); [|lia].
      destruct (Z.ltb_spec (Z.of_nat (length arr - S k)) (len arr)); [|lia]. cbn [andb]. rewrite bind_ok. cbv beta.
      rewrite w_put_adv, IH by wr R.
      rewrite w_adv_app. rewrite Nat2Z.id. rewrite (skipn_nth arr (length arr - S k)) by lia.
      replace (S (length arr - S k)) with (length arr - k)%nat by lia. reflexivity. }
  rewrite (Q (length arr)) by wr R. rewrite Nat.sub_diag. reflexivity.
Qed.

Lemma set_mid : forall (a : list Z) x t v, set_nth (a ++ x :: t) (length a) v = a ++ v :: t.
Proof. induction a as [|y a IH]; intros; cbn [app length set_nth]; [reflexivity|]. rewrite IH. reflexivity. Qed.
(** ** Partial signatures *)
Lemma sec_len : forall c x y, len (sec_bytes c x y) = pt_length c.
Proof. intros. unfold sec_bytes, pt_length. destruct c; rewrite len_cons; rewrite ?len_app; unfold len; rewrite ?be_bytes_length; reflexivity. Qed.
Lemma psig_writes : forall e g, psig_holds e g -> psig_ok g -> exists pair, psig_pair g pair /\
  len (fst pair) = 1 + pt_length (g_comp g) /\ len (snd pair) <= 73 /\
  psig_key e = Ok ((len (fst pair)) :: fst pair ++ zeros (65 - length (sec_bytes (g_comp g) (g_x g) (g_y g)))) /\
  (exists z, psig_value e = Ok (len (snd pair) :: snd pair ++ z)) /\
  2 + pt_length (pt_comp (fst e)) + (2 + sig_length (snd e)) = len (wire_pair pair).
Proof.
  intros [k s] g (X & C & H) (O & R & RS). cbn [fst snd] in *.
  destruct (der_writes s _ _ H) as (d & D & LD & SL & _ & SW).
  pose proof (sec_len (g_comp g) (g_x g) (g_y g)) as SL2.
  assert (PL : 33 <= pt_length (g_comp g) <= 65) by (unfold pt_length; destruct (g_comp g); lia).
  assert (W1 : forall n, (n < 253)%Z -> len (compact_size n) = 1) by (intros n Hn; unfold compact_size; destruct (Z.ltb_spec n 253); [reflexivity|lia]).
  exists (2 :: sec_bytes (g_comp g) (g_x g) (g_y g), d ++ [1]). cbn [fst snd]. split; [exists d; auto|].
  rewrite len_cons, SL2. split; [reflexivity|]. rewrite len_app. change (len [1]) with 1. split; [lia|].
  split; [|split].
  - unfold psig_key. cbn [fst].
    assert (PW := pt_slices_coords k (g_x g) (g_y g) X). rewrite C in PW.
    specialize (PW 65%nat 0 ltac:(lia)). cbn zeta in PW. cbn [Z.to_nat] in PW. rewrite skipn_O in PW.
    rewrite firstn_all2 in PW by (unfold len in *; lia). rewrite PW, bind_ok. cbn [fst snd]. rewrite SL2, u8_id by lia. reflexivity.
  - unfold psig_value. cbn [snd]. specialize (SW 98%nat 0 ltac:(lia)). cbn zeta in SW. cbn [Z.to_nat] in SW. rewrite skipn_O in SW.
    rewrite firstn_all2 in SW by (unfold len in *; lia). rewrite SW, bind_ok. cbv beta. cbn [fst snd]. rewrite u8_id by lia.
    exists (skipn 1 (zeros (98 - length d)) ++ [0]). unfold aset.
    destruct (Z.leb_spec 0 (1 + len d)); [|lia].
    destruct (Z.ltb_spec (1 + len d) (len ((1 + len d) :: (d ++ zeros (98 - length d)) ++ [0]))).
    2:{ rewrite len_cons, !len_app, len_zeros in *. change (len [0]) with 1 in *. lia. }
    cbn [andb]. apply (f_equal Ok).
    replace (Z.to_nat (1 + len d)) with (S (length d)) by (unfold len; lia). cbn [set_nth]. rewrite Z.add_comm. f_equal.
    rewrite <- !app_assoc. destruct (98 - length d)%nat eqn:N; [unfold len in *; lia|]. cbn [zeros repeat app skipn]. rewrite set_mid. reflexivity.
  - unfold wire_pair. cbn [fst snd]. rewrite len_app, !len_wire_bytes, len_cons, len_app, SL2, !W1 by (change (len [1]) with 1; lia).
    change (len [1]) with 1. rewrite C, SL. lia.
Qed.
Lemma wire_short : forall l, len l < 253 -> wire_bytes l = len l :: l.
Proof. intros l H. unfold wire_bytes, compact_size. destruct (Z.ltb_spec (len l) 253); [reflexivity|lia]. Qed.
Lemma rel_prefix : forall a z n fuel base w, n = len a -> write_rel fuel base n (a ++ z) w = write_rel fuel base n a w.
Proof.
  induction fuel as [|f IH]; intros base w ->; cbn [write_rel]; [reflexivity|].
  destruct (w_available w && (u64 (w_pos w - base) <? len a)) eqn:E; [|reflexivity].
  apply andb_prop in E as [_ E]. apply Z.ltb_lt in E. assert (0 <= u64 (w_pos w - base)) by (unfold u64; dlia).
  assert (A : aget (a ++ z) (u64 (w_pos w - base)) = aget a (u64 (w_pos w - base))).
  { unfold aget. rewrite len_app. pose proof (len_nonneg _ z).
    destruct (Z.leb_spec 0 (u64 (w_pos w - base))); [|lia]. destruct (Z.ltb_spec (u64 (w_pos w - base)) (len a + len z)); [|lia].
    destruct (Z.ltb_spec (u64 (w_pos w - base)) (len a)); [|lia]. cbn [andb]. rewrite app_nth1 by (unfold len in *; lia). reflexivity. }
  rewrite A. destruct (aget a _); [|reflexivity]. cbn [bind]. apply IH. reflexivity.
Qed.
Lemma psig_emits : forall e g, psig_holds e g -> psig_ok g -> exists pair, psig_pair g pair /\ len (fst pair) < 253 /\ len (snd pair) < 253 /\
  2 + pt_length (pt_comp (fst e)) + (2 + sig_length (snd e)) = len (wire_pair pair) /\
  forall cur w, w_pos w = cur -> room (w_cap w) (length (wire_pair pair)) -> write_psig e cur w = Ok (w_adv w (wire_pair pair), cur + len (wire_pair pair)).
Proof.
  intros e g H O. destruct (psig_writes e g H O) as (pair & PP & L1 & L2 & K & (z & V) & LL). exists pair.
  assert (PL : 33 <= pt_length (g_comp g) <= 65) by (unfold pt_length; destruct (g_comp g); lia).
  split; [auto|]. split; [lia|]. split; [lia|]. split; [auto|]. intros cur w P R. unfold write_psig. rewrite K, bind_ok. cbv beta.
  set (z0 := zeros _) in *. clearbody z0. destruct pair as [a b]. cbn [fst snd] in *.
  assert (A0 : forall x (l : list Z), aget (x :: l) 0 = Ok x).
  { intros x l. unfold aget. rewrite len_cons. pose proof (len_nonneg _ l). destruct (Z.ltb_spec 0 (1 + len l)); [reflexivity|lia]. }
  rewrite A0, bind_ok. cbv beta.
  assert (LW : wire_pair (a, b) = (len a :: a) ++ (len b :: b)) by (unfold wire_pair; cbn [fst snd]; rewrite !wire_short by lia; reflexivity).
  rewrite LW in *. rewrite app_length in R.
  change (len a :: a ++ z0) with ((len a :: a) ++ z0). rewrite rel_prefix by (rewrite len_cons; lia).
  rewrite (emits_rel (len a :: a)) by wr R.
  rewrite bind_ok. cbv beta zeta. rewrite V, bind_ok. cbv beta. rewrite A0, bind_ok. cbv beta.
  change (len b :: b ++ z) with ((len b :: b) ++ z). rewrite rel_prefix by (rewrite len_cons; lia).
  rewrite (emits_rel (len b :: b)) by wr R.
  rewrite bind_ok. cbv beta. rewrite w_adv_app, len_app, !len_cons. f_equal. f_equal. lia.
Qed.
Lemma psigs_emit : forall es gs, Forall2 psig_holds es gs -> Forall psig_ok gs -> exists pairs, Forall2 psig_pair gs pairs /\
  Forall (fun p => len (fst p) < 253 /\ len (snd p) < 253) pairs /\ sigs_length es = len (flat_map wire_pair pairs) /\
  forall cur w, w_pos w = cur -> room (w_cap w) (length (flat_map wire_pair pairs)) ->
    write_psigs es cur w = Ok (w_adv w (flat_map wire_pair pairs), cur + len (flat_map wire_pair pairs)).
Proof.
  induction 1 as [|e g es gs H HS IH]; intros P.
  - exists []. split; [constructor|]. split; [constructor|]. split; [reflexivity|]. intros cur w E R. cbn [write_psigs flat_map]. rewrite w_adv_nil.
    change (len (@nil Z)) with 0. rewrite Z.add_0_r. reflexivity.
  - apply Forall_cons_iff in P as [P1 P2]. destruct (IH P2) as (pairs & F & S & L & W). destruct (psig_emits e g H P1) as (p & F1 & S1 & S2 & L1 & W1).
    exists (p :: pairs). split; [constructor; auto|]. split; [constructor; auto|]. cbn [flat_map sigs_length].
    split; [rewrite len_app, <- L1, <- L; reflexivity|]. intros cur w E R. rewrite app_length in R. cbn [write_psigs].
    rewrite W1 by (solve [auto | eapply room_le; [|exact R]; lia]). rewrite bind_ok. cbv beta. cbn [fst snd].
    rewrite W by (rewrite ?adv_pos; try lia; apply adv_room; auto). rewrite w_adv_app, len_app, Z.add_assoc. reflexivity.
Qed.

(** ** Sections *)
Definition section_emits (p : psbt) (s : Z) (l : list (list Z * list Z)) : Prop :=
  forall cur w, w_pos w = cur -> room (w_cap w) (length (flat_map wire_pair l)) ->
  (if (0 <? s) && (s <? len (t_ins (ps_tx p)) + 1) then let! m := at_ptr (ps_ins p) (s - 1) in write_psigs (im_sigs m) cur w else Ok (w, cur))
  = Ok (w_adv w (flat_map wire_pair l), cur + len (flat_map wire_pair l)).
Lemma sections_emit : forall p ms s, (forall j l, nth_error ms j = Some l -> section_emits p (s + Z.of_nat j) l) ->
  forall cur w, w_pos w = cur -> room (w_cap w) (length (flat_map wire_map ms)) ->
  write_sections (length ms) p s cur w = Ok (w_adv w (flat_map wire_map ms)).
Proof.
  intros p. induction ms as [|l ms IH]; intros s H cur w P R.
  - cbn [length write_sections flat_map]. rewrite w_adv_nil. reflexivity.
  - cbn [length write_sections flat_map] in *. rewrite app_length in R. unfold wire_map at 1 in R. rewrite app_length in R. cbn [length] in R.
    rewrite (room_available w (length (flat_map wire_pair l) + 1 + length (flat_map wire_map ms))) by (auto; lia).
    pose proof (H 0%nat l eq_refl) as H0. rewrite Z.add_0_r in H0.
    rewrite H0 by wr R. rewrite bind_ok. cbv beta iota zeta.
    unfold put_zero. rewrite (room_available _ (1 + length (flat_map wire_map ms))) by (solve [lia | apply adv_room; eapply room_le; [|exact R]; lia]).
    rewrite w_put_adv, w_adv_app. change (flat_map wire_pair l ++ [0]) with (wire_map l).
    rewrite IH.
    + rewrite w_adv_app. reflexivity.
    + intros j l' N. specialize (H (S j) l' N). replace (s + 1 + Z.of_nat j) with (s + Z.of_nat (S j)) by lia. exact H.
    + rewrite adv_pos. unfold wire_map. rewrite len_app. change (len [0]) with 1. lia.
    + apply adv_room. unfold wire_map at 1. rewrite app_length. cbn [length]. eapply room_le; [|exact R]. lia.
Qed.

Lemma ins_writes : forall ins sigs, Forall2 (fun m l => Forall2 psig_holds (im_sigs m) l) ins sigs -> Forall (Forall psig_ok) sigs ->
  exists maps, Forall2 (Forall2 psig_pair) sigs maps /\ Forall (Forall (fun p => len (fst p) < 253 /\ len (snd p) < 253)) maps /\
  Forall2 (fun m l => sigs_length (im_sigs m) = len (flat_map wire_pair l) /\
    forall cur w, w_pos w = cur -> room (w_cap w) (length (flat_map wire_pair l)) ->
    write_psigs (im_sigs m) cur w = Ok (w_adv w (flat_map wire_pair l), cur + len (flat_map wire_pair l))) ins maps.
Proof.
  induction 1 as [|m l ins sigs H HS IH]; intros P.
  - exists []. repeat split; constructor.
  - apply Forall_cons_iff in P as [P1 P2]. destruct (IH P2) as (maps & A & B & C). destruct (psigs_emit _ _ H P1) as (pairs & A1 & B1 & C1 & D1).
    exists (pairs :: maps). split; [constructor; auto|]. split; constructor; auto.
Qed.
Lemma at_app : forall {A} (l1 : list A) x l2 i, i = len l1 -> at_ptr (Some (l1 ++ x :: l2)) i = Ok x.
Proof.
  intros A l1 x l2 i ->. unfold at_ptr. pose proof (len_nonneg _ l1). destruct (Z.ltb_spec (len l1) 0); [lia|].
  unfold len. rewrite Nat2Z.id, nth_error_app2, Nat.sub_diag by lia. reflexivity.
Qed.
Lemma at_nth : forall {A} (l : list A) i x, nth_error l i = Some x -> at_ptr (Some l) (Z.of_nat i) = Ok x.
Proof. intros A l i x H. unfold at_ptr. destruct (Z.ltb_spec (Z.of_nat i) 0); [lia|]. rewrite Nat2Z.id, H. reflexivity. Qed.
Lemma ins_length_sum : forall p ins maps pre, ps_ins p = Some (pre ++ ins) ->
  Forall2 (fun m (l : list (list Z * list Z)) => sigs_length (im_sigs m) = len (flat_map wire_pair l)) ins maps ->
  ins_length (length ins) p (len pre) = Ok (len (flat_map wire_map maps) - len maps).
Proof.
  intros p. induction ins as [|m ins IH]; intros maps pre E F; inversion F as [|? l ? maps' H1 H2]; subst.
  - reflexivity.
  - cbn [length ins_length]. rewrite E, at_app by reflexivity. rewrite bind_ok. cbv beta.
    specialize (IH maps' (pre ++ [m])). rewrite <- app_assoc in IH. specialize (IH E H2). rewrite len_app in IH. change (len [m]) with 1 in IH.
    rewrite IH, bind_ok. cbv beta. apply (f_equal Ok). cbn [flat_map]. rewrite len_app, len_cons. unfold wire_map at 2. rewrite len_app.
    change (len [0]) with 1. lia.
Qed.
Lemma nth_F2 : forall {A B} (R : A -> B -> Prop) l l' i y, Forall2 R l l' -> nth_error l' i = Some y -> exists x, nth_error l i = Some x /\ R x y.
Proof. intros A B R l l' i y H. revert i. induction H; intros [|i]; cbn [nth_error]; intros E; try discriminate; [injection E as <-; eauto|eauto]. Qed.
Lemma F2_len : forall {A B} (R : A -> B -> Prop) l l', Forall2 R l l' -> length l = length l'.
Proof. induction 1; cbn [length]; auto. Qed.
Lemma holds_counts : forall t v, tx_holds t v -> length (t_ins t) = length (s_ins v) /\ length (t_outs t) = length (s_outs v).
Proof. intros t v (_ & _ & _ & _ & I & O). split; eapply F2_len; eauto. Qed.

Lemma psbt_writes : forall p v sigs, psbt_holds p v sigs -> small_tx v -> Forall (Forall psig_ok) sigs ->
  1 + len (s_ins v) + len (s_outs v) <= 255 -> len (wire_tx v) < 2^31 ->
  exists maps, Forall2 (Forall2 psig_pair) sigs maps /\ Forall (Forall (fun p => len (fst p) < 253 /\ len (snd p) < 253)) maps /\
  let w := wire_psbt (wire_tx v) [] (maps ++ repeat [] (length (s_outs v))) in
  psbt_length p = Ok (len w) /\ forall n, (length w <= n)%nat -> serialize (psbt_to_stream p) n 0 = Ok (len w, w ++ zeros (n - length w)).
Proof.
  intros p v sigs (HT & ins & outs & EI & EO & LO & LS & HS) SM PO LE LW.
  destruct (ins_writes ins sigs HS PO) as (maps & MP & MS & MW). exists maps. split; [auto|]. split; [auto|]. intros w.
  destruct (holds_counts _ _ HT) as [CI CO]. pose proof (F2_len _ _ _ HS) as L1. pose proof (F2_len _ _ _ MP) as L2.
  destruct SM as (S1 & S2 & S3).
  assert (FT : fits v) by (unfold fits, in_fits; repeat split; auto; lia).
  pose proof (tx_serializes (ps_tx p) v HT FT) as TS.
  pose proof (tx_length_wire (ps_tx p) v HT FT) as TL.
  assert (SN : 1 + len (t_ins (ps_tx p)) + len (t_outs (ps_tx p)) = 1 + len (s_ins v) + len (s_outs v)) by (unfold len; lia).
  pose proof (len_nonneg _ (s_ins v)). pose proof (len_nonneg _ (s_outs v)). pose proof (len_nonneg _ (wire_tx v)).
  set (ms := [] :: maps ++ repeat [] (length (s_outs v))).
  assert (LM : length ms = Z.to_nat (1 + len (s_ins v) + len (s_outs v))).
  { unfold ms. cbn [length]. rewrite app_length, repeat_length. unfold len. lia. }
  assert (WE : w = [112; 115; 98; 116; 255; 1; 0] ++ compact_size (len (wire_tx v)) ++ wire_tx v ++ flat_map wire_map ms).
  { unfold w, wire_psbt, wire_pair, ms, wire_bytes. cbn [fst snd flat_map]. rewrite <- !app_assoc. reflexivity. }
  pose proof (compact_size_len (len (wire_tx v)) ltac:(lia)) as [CS _].
  assert (ZO : forall n, flat_map wire_map (repeat [] n) = zeros n).
  { induction n; [reflexivity|]. cbn [repeat flat_map]. rewrite IHn. reflexivity. }
  split.
  - unfold psbt_length. rewrite SN, TL, u8_id by lia. rewrite CI, <- LS, <- L1.
    pose proof (ins_length_sum p ins maps [] EI) as IL. cbn [app] in IL. change (len (@nil inmeta)) with 0 in IL.
    rewrite IL by (eapply F2_impl; [|exact MW]; cbn beta; intros; tauto). rewrite bind_ok. cbv beta. apply (f_equal Ok). rewrite WE.
    rewrite !len_app, lenVarInt_spec by lia. change (len [112; 115; 98; 116; 255; 1; 0]) with 7. unfold ms. cbn [flat_map].
    rewrite len_app, flat_map_app, len_app, ZO, len_zeros. change (len (wire_map [])) with 1. unfold len in *. lia.
  - intros n Hn. unfold serialize.
    assert (E : psbt_to_stream p (Some n) 0 = Ok w).
    { unfold psbt_to_stream. rewrite TL, SN, u8_id by lia.
      pose proof (varint_arr_ok (len (wire_tx v)) ltac:(lia)) as VA. unfold varint_arr in VA.
      destruct (writeVarInt (len (wire_tx v)) (zeros 10)) as [[l arr]|] eqn:WV; [|discriminate]. rewrite bind_ok in VA. cbn [snd] in VA. injection VA as ->.
      rewrite writeVarInt_spec in WV by (try lia; rewrite len_zeros; lia). injection WV as <- _.
      set (w0 := mkWst 0 (Some n) []).
      assert (R0 : room (w_cap w0) (length w)) by exact Hn. rewrite WE in R0. rewrite !app_length in R0.
      rewrite (writes_emits 0 _ _ (writes_loop_all 7 0 [112; 115; 98; 116; 255; 1; 0] 7 eq_refl (le_n _))).
      2: reflexivity. 2: eapply room_le; [|exact R0]; lia.
      rewrite !bind_ok. cbv beta zeta. cbn [fst snd].
      pose proof (adv_room _ _ _ R0) as R1.
      set (z := zeros (10 - length (compact_size (len (wire_tx v))))).
      pose proof (writes_loop 10 7 (len (compact_size (len (wire_tx v)))) (compact_size (len (wire_tx v)) ++ z)) as WL.
      rewrite len_app in WL. pose proof (len_nonneg _ z).
      specialize (WL ltac:(lia) ltac:(lia)). 
      replace (Z.to_nat (len (compact_size (len (wire_tx v))))) with (length (compact_size (len (wire_tx v)))) in WL by (unfold len; lia).
      rewrite firstn_app_len in WL by reflexivity.
      rewrite (writes_emits _ _ _ WL). 2: reflexivity. 2: eapply room_le; [|exact R1]; lia.
      rewrite bind_ok. cbv beta. pose proof (adv_room _ _ _ R1) as R2.
      rewrite (emits_while _ _ _ _ TS). 2: lia. 2: lia. 2: unfold len; lia. 2: rewrite !adv_pos; change (len [112; 115; 98; 116; 255; 1; 0]) with 7; cbn [w0 w_pos]; lia. 2: eapply room_le; [|exact R2]; lia.
      rewrite bind_ok. cbv beta. pose proof (adv_room _ _ _ R2) as R3.
      rewrite <- LM, sections_emit.
      2:{ intros j l N. unfold ms in N. destruct j as [|j]; cbn [nth_error] in N.
          - injection N as <-. intros cur ww P R. cbn [flat_map]. rewrite w_adv_nil. change (len (@nil Z)) with 0. rewrite (Z.add_0_r cur). reflexivity.
          - intros cur ww P R. replace (0 + Z.of_nat (S j)) with (Z.of_nat j + 1) by lia. rewrite Z.add_simpl_r.
            destruct (Z.ltb_spec 0 (Z.of_nat j + 1)); [|lia]. cbn [andb].
            destruct (Z.ltb_spec (Z.of_nat j + 1) (len (t_ins (ps_tx p)) + 1)) as [I|I].
            + rewrite nth_error_app1 in N by (unfold len in *; lia). destruct (nth_F2 _ _ _ _ _ MW N) as (m & Nm & _ & W).
              rewrite EI, (at_nth _ _ _ Nm), bind_ok. cbv beta. apply W; auto.
            + rewrite nth_error_app2 in N by (unfold len in *; lia). apply nth_error_In in N. apply repeat_spec in N. subst l.
              cbn [flat_map]. rewrite w_adv_nil. change (len (@nil Z)) with 0. rewrite Z.add_0_r. reflexivity. }
      2: rewrite !adv_pos; change (len [112; 115; 98; 116; 255; 1; 0]) with 7; cbn [w0 w_pos]; lia. 2: exact R3.
      rewrite bind_ok, !w_adv_app. rewrite WE. reflexivity. }
    rewrite E, bind_ok. reflexivity.
Qed.
