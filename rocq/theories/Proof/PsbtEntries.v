(** The entries of each map act on the metadata of their input or output alone. *)
From Coq Require Import Lia.
From Verif Require Import Base.Bytes Base.BytesFacts Spec.Codecs Spec.Wire Spec.Objects Spec.Signature Spec.Point Spec.PSBT
  Model.Conversion Model.Stream Model.Script Model.Tx Model.Signature Model.Point Model.PSBT
  Proof.IntVarint Proof.ScriptFacts Proof.TxIo Proof.TxParse Proof.TxSer Proof.TxHash Proof.SigFacts Proof.SigProps Proof.PointFacts Proof.PointProps Proof.PsbtFacts Proof.PsbtParse Proof.PsbtWrite.
Open Scope Z_scope.

Section Entries.
Variable dsha : list Z -> list Z.
Variable garbage : list Z.
Notation add := (add_meta dsha garbage).

Definition in_entry (x : inmeta) (i : txin) (e : list Z * list Z) : outcome (inmeta * Z) :=
  let! code := aget (wire_bytes (fst e)) (body_at (parsed_script (fst e))) in
  add_input dsha garbage x i (parsed_script (fst e)) (parsed_script (snd e)) (wire_bytes (fst e)) (wire_bytes (snd e)) code.
Definition out_entry (x : outmeta) (e : list Z * list Z) : outcome (outmeta * Z) :=
  let! code := aget (wire_bytes (fst e)) (body_at (parsed_script (fst e))) in
  add_output garbage x (parsed_script (fst e)) (parsed_script (snd e)) (wire_bytes (fst e)) (wire_bytes (snd e)) code.
Fixpoint pairs_on {A} (f : A -> list Z * list Z -> outcome (A * Z)) (x : A) (l : list (list Z * list Z)) : outcome (A * bool) :=
  match l with
  | [] => Ok (x, true)
  | e :: l => let! r := f x e in if snd r <? 0 then Ok (fst r, false) else pairs_on f (fst r) l
  end.
Fixpoint ins_run (xs : list inmeta) (is : list txin) (maps : list (list (list Z * list Z))) : outcome (list inmeta * bool) :=
  match xs, is, maps with
  | x :: xs, i :: is, l :: maps =>
      let! r := pairs_on (fun x => in_entry x i) x l in
      if snd r then let! q := ins_run xs is maps in Ok (fst r :: fst q, snd q) else Ok (fst r :: xs, false)
  | _, _, _ => Ok (xs, true)
  end.
Fixpoint outs_run (xs : list outmeta) (maps : list (list (list Z * list Z))) : outcome (list outmeta * bool) :=
  match xs, maps with
  | x :: xs, l :: maps =>
      let! r := pairs_on out_entry x l in
      if snd r then let! q := outs_run xs maps in Ok (fst r :: fst q, snd q) else Ok (fst r :: xs, false)
  | _, _ => Ok (xs, true)
  end.

Lemma put_app : forall {A} (pre : list A) x post y i, i = len pre -> put_ptr (Some (pre ++ x :: post)) i y = Some (pre ++ y :: post).
Proof.
  intros A pre x post y i ->. unfold put_ptr. f_equal. unfold len. rewrite Nat2Z.id.
  induction pre as [|z pre IH]; cbn [length app put_at]; [reflexivity|]. rewrite IH. reflexivity.
Qed.

Lemma add_in : forall t pre x post o prei i posti k v sec, t_ins t = prei ++ i :: posti -> len prei = len pre -> sec = 1 + len pre ->
  sections_of t <= 255 -> pair_ok (k, v) ->
  add t (Some (pre ++ x :: post), o) sec (parsed_script k) (parsed_script v) =
  let! r := in_entry x i (k, v) in Ok ((Some (pre ++ fst r :: post), o), snd r).
Proof.
  intros t pre x post o prei i posti k v sec ET EL -> LE (NE & BK & LK & BV & LV). cbn [fst snd] in *.
  pose proof (len_nonneg _ pre). pose proof (len_nonneg _ posti). pose proof (len_nonneg _ (t_outs t)).
  assert (LI : len (t_ins t) = len pre + 1 + len posti) by (rewrite ET, len_app, len_cons; lia).
  unfold add_meta, sections_of in *. destruct (Z.eqb_spec (1 + len pre) 0); [lia|]. rewrite Z.gtb_ltb.
  destruct (Z.ltb_spec (1 + len (t_ins t) + len (t_outs t)) (1 + len pre)); [lia|]. cbn [orb].
  rewrite !ser_parsed by auto. rewrite !bind_ok. cbv beta. unfold in_entry. cbn [fst snd].
  destruct (aget (wire_bytes k) (body_at (parsed_script k))) as [code|]; [|reflexivity]. rewrite !bind_ok. cbv beta.
  destruct (Z.ltb_spec (1 + len pre) (1 + len (t_ins t))); [|lia]. cbv zeta. rewrite u8_id by lia. replace (1 + len pre - 1) with (len pre) by lia.
  cbn [fst snd]. rewrite at_app, bind_ok by reflexivity. cbv beta. rewrite ET, at_app, bind_ok by lia. cbv beta.
  destruct (add_input _ _ _ _ _ _ _ _ _) as [[y res]|]; [|reflexivity]. rewrite !bind_ok. cbn [fst snd]. rewrite put_app by reflexivity. reflexivity.
Qed.
Lemma add_out : forall t o pre x post k v sec, len (t_outs t) = len (pre ++ x :: post) -> sec = 1 + len (t_ins t) + len pre ->
  sections_of t <= 255 -> pair_ok (k, v) ->
  add t (o, Some (pre ++ x :: post)) sec (parsed_script k) (parsed_script v) =
  let! r := out_entry x (k, v) in Ok ((o, Some (pre ++ fst r :: post)), snd r).
Proof.
  intros t o pre x post k v sec ET -> LE (NE & BK & LK & BV & LV). cbn [fst snd] in *.
  pose proof (len_nonneg _ pre). pose proof (len_nonneg _ post). pose proof (len_nonneg _ (t_ins t)).
  rewrite len_app, len_cons in ET.
  unfold add_meta, sections_of in *. destruct (Z.eqb_spec (1 + len (t_ins t) + len pre) 0); [lia|]. rewrite Z.gtb_ltb.
  destruct (Z.ltb_spec (1 + len (t_ins t) + len (t_outs t)) (1 + len (t_ins t) + len pre)); [lia|]. cbn [orb].
  rewrite !ser_parsed by auto. rewrite !bind_ok. cbv beta. unfold out_entry. cbn [fst snd].
  destruct (aget (wire_bytes k) (body_at (parsed_script k))) as [code|]; [|reflexivity]. rewrite !bind_ok. cbv beta.
  destruct (Z.ltb_spec (1 + len (t_ins t) + len pre) (1 + len (t_ins t))); [lia|]. cbv zeta. rewrite u8_id by lia.
  replace (1 + len (t_ins t) + len pre - 1 - len (t_ins t)) with (len pre) by lia.
  cbn [fst snd]. rewrite at_app, bind_ok by reflexivity. cbv beta.
  destruct (add_output _ _ _ _ _ _ _) as [[y res]|]; [|reflexivity]. rewrite !bind_ok. cbn [fst snd]. rewrite put_app by reflexivity. reflexivity.
Qed.

Lemma pairs_in : forall l t pre x post o prei i posti sec, t_ins t = prei ++ i :: posti -> len prei = len pre -> sec = 1 + len pre ->
  sections_of t <= 255 -> Forall pair_ok l ->
  run_pairs dsha garbage t (Some (pre ++ x :: post), o) sec l =
  let! r := pairs_on (fun x => in_entry x i) x l in Ok ((Some (pre ++ fst r :: post), o), snd r).
Proof.
  induction l as [|[k v] l IH]; intros t pre x post o prei i posti sec ET EL ES LE P; [reflexivity|].
  apply Forall_cons_iff in P as [P1 P2]. cbn [run_pairs pairs_on]. rewrite (add_in t pre x post o prei i posti) by auto.
  destruct (in_entry x i (k, v)) as [[y res]|]; [|reflexivity]. rewrite !bind_ok. cbv beta. cbn [fst snd].
  destruct (res <? 0); [reflexivity|]. apply (IH t pre y post o prei i posti); auto.
Qed.
Lemma pairs_out : forall l t o pre x post sec, len (t_outs t) = len (pre ++ x :: post) -> sec = 1 + len (t_ins t) + len pre ->
  sections_of t <= 255 -> Forall pair_ok l ->
  run_pairs dsha garbage t (o, Some (pre ++ x :: post)) sec l =
  let! r := pairs_on out_entry x l in Ok ((o, Some (pre ++ fst r :: post)), snd r).
Proof.
  induction l as [|[k v] l IH]; intros t o pre x post sec ET ES LE P; [reflexivity|].
  apply Forall_cons_iff in P as [P1 P2]. cbn [run_pairs pairs_on]. rewrite (add_out t o pre x post) by auto.
  destruct (out_entry x (k, v)) as [[y res]|]; [|reflexivity]. rewrite !bind_ok. cbv beta. cbn [fst snd].
  destruct (res <? 0); [reflexivity|]. apply IH; auto. rewrite ET, !len_app, !len_cons. reflexivity.
Qed.
Lemma maps_in : forall xs t pre o prei is maps rest sec, t_ins t = prei ++ is -> len prei = len pre -> length xs = length is -> length xs = length maps ->
  sec = 1 + len pre -> sections_of t <= 255 -> Forall (Forall pair_ok) maps ->
  run_maps dsha garbage t (Some (pre ++ xs), o) sec (maps ++ rest) =
  let! r := ins_run xs is maps in
  if snd r then run_maps dsha garbage t (Some (pre ++ fst r), o) (1 + len pre + len xs) rest else Ok ((Some (pre ++ fst r), o), false).
Proof.
  induction xs as [|x xs IH]; intros t pre o prei is maps rest sec ET EL L1 L2 ES LE P.
  - destruct maps; [|discriminate]. cbn [app ins_run bind fst snd]. change (len (@nil inmeta)) with 0. rewrite Z.add_0_r. subst sec. reflexivity.
  - destruct is as [|i is]; [discriminate|]. destruct maps as [|l maps]; [discriminate|]. apply Forall_cons_iff in P as [P1 P2].
    cbn [app run_maps ins_run]. rewrite (pairs_in l t pre x xs o prei i is) by auto.
    destruct (pairs_on _ x l) as [[y [|]]|]; [| |reflexivity].
    + rewrite !bind_ok. cbv beta. cbn [fst snd].
      specialize (IH t (pre ++ [y]) o (prei ++ [i]) is maps rest (sec + 1)). rewrite <- !app_assoc in IH. cbn [app] in IH. rewrite !len_app in IH.
      change (len [y]) with 1 in IH. change (len [i]) with 1 in IH. cbn [length] in *.
      rewrite IH by (auto; lia). destruct (ins_run xs is maps) as [[ys [|]]|]; [| |reflexivity]; rewrite !bind_ok; cbv beta; cbn [fst snd]; rewrite <- !app_assoc; cbn [app].
      * rewrite len_cons. f_equal. lia.
      * reflexivity.
    + rewrite !bind_ok. cbv beta. cbn [fst snd]. reflexivity.
Qed.
Lemma maps_out : forall xs t o pre maps sec, len (t_outs t) = len (pre ++ xs) -> length xs = length maps -> sec = 1 + len (t_ins t) + len pre ->
  sections_of t <= 255 -> Forall (Forall pair_ok) maps ->
  run_maps dsha garbage t (o, Some (pre ++ xs)) sec maps = let! r := outs_run xs maps in Ok ((o, Some (pre ++ fst r)), snd r).
Proof.
  induction xs as [|x xs IH]; intros t o pre maps sec ET L ES LE P.
  - destruct maps; [|discriminate]. reflexivity.
  - destruct maps as [|l maps]; [discriminate|]. apply Forall_cons_iff in P as [P1 P2].
    cbn [run_maps outs_run]. rewrite (pairs_out l t o pre x xs) by auto.
    destruct (pairs_on _ x l) as [[y [|]]|]; [| |reflexivity].
    + rewrite !bind_ok. cbv beta. cbn [fst snd].
      specialize (IH t o (pre ++ [y]) maps (sec + 1)). rewrite <- !app_assoc in IH. cbn [app] in IH.
      rewrite !len_app in IH. change (len [y]) with 1 in IH. cbn [length] in *.
      rewrite IH by (auto; rewrite ?ET; repeat rewrite len_app; repeat rewrite len_cons; lia). destruct (outs_run xs maps) as [[ys b]|]; [|reflexivity]. rewrite !bind_ok. cbn [fst snd].
      rewrite <- app_assoc. reflexivity.
    + rewrite !bind_ok. cbn [fst snd]. reflexivity.
Qed.
Lemma run_all : forall t mi mo, len mi = len (t_ins t) -> len mo = len (t_outs t) -> sections_of t <= 255 -> Forall (Forall pair_ok) (mi ++ mo) ->
  run_maps dsha garbage t (fresh_metas t) 1 (mi ++ mo) =
  let! r := ins_run (repeat im_new (length (t_ins t))) (t_ins t) mi in
  if snd r then let! q := outs_run (repeat om_new (length (t_outs t))) mo in Ok ((Some (fst r), Some (fst q)), snd q)
  else Ok ((Some (fst r), snd (fresh_metas t)), false).
Proof.
  intros t mi mo L1 L2 LE P. apply Forall_app in P as [P1 P2]. unfold fresh_metas.
  pose proof (maps_in (repeat im_new (length (t_ins t))) t [] (Some (repeat om_new (length (t_outs t)))) [] (t_ins t) mi mo 1) as H. cbn [app] in H.
  rewrite repeat_length in H. rewrite H by (auto; unfold len in *; lia).
  destruct (ins_run _ _ _) as [[ys [|]]|]; [| |reflexivity]; rewrite !bind_ok; cbn [fst snd]; [|reflexivity].
  pose proof (maps_out (repeat om_new (length (t_outs t))) t (Some ys) [] mo (1 + len (t_ins t))) as K. cbn [app] in K. rewrite repeat_length in K.
  change (len (@nil inmeta)) with 0. replace (1 + 0 + len (repeat im_new (length (t_ins t)))) with (1 + len (t_ins t)) by (unfold len; rewrite repeat_length; lia).
  rewrite K by (auto; unfold len in *; rewrite ?repeat_length; cbn [length]; lia). reflexivity.
Qed.

(** ** Entries *)
Lemma first_byte : forall c k, len (c :: k) < 252 -> bytes_ok (c :: k) -> aget (wire_bytes (c :: k)) (body_at (parsed_script (c :: k))) = Ok c.
Proof.
  intros c k L B. destruct (body_plain (c :: k)) as [E _]; auto; [lia|unfold plain_length; lia|]. rewrite E. pose proof (len_nonneg _ k). rewrite len_cons in *.
  unfold wire_bytes, compact_size. rewrite len_cons. destruct (Z.ltb_spec (1 + len k) 253); [|lia]. change (len [1 + len k]) with 1. cbn [app].
  unfold aget. rewrite !len_cons. cbn [Z.leb Z.compare]. destruct (Z.ltb_spec 1 (1 + (1 + len k))); [reflexivity|lia].
Qed.
Lemma plen : forall bs, bytes_ok bs -> len bs < 252 -> script_length (parsed_script bs) = 1 + len bs.
Proof. intros bs B L. pose proof (len_nonneg _ bs). rewrite parsed_script_length by (auto; lia). rewrite wire_short by lia. apply len_cons. Qed.
Lemma byte1 : forall c, 0 <= c < 256 -> bytes_ok [c].
Proof. intros c H. constructor; [exact H|constructor]. Qed.
Lemma one_byte : forall c, 0 <= c < 256 -> script_length (parsed_script [c]) = 2.
Proof. intros c H. rewrite plen; [reflexivity|apply byte1; auto|reflexivity]. Qed.

(** The output that a witness UTXO entry holds. *)
Lemma entry_utxo : forall x i o, to_status (im_out x) = DONE -> sc_len (to_script (im_out x)) = len (sc_arr (to_script (im_out x))) ->
  out_ok o -> plain_length (len (wire_out o)) -> bytes_ok (wire_out o) -> len (wire_out o) < 2^31 ->
  in_entry x i ([1], wire_out o) = Ok (mkInMeta (parsed_out o) (im_ders x) (im_redeem x) (im_witness x) (im_sigs x), 1).
Proof.
  intros x i o S1 S3 O PL B L. unfold in_entry. cbn [fst snd]. rewrite first_byte by (try reflexivity; apply byte1; lia). rewrite bind_ok. cbv beta.
  unfold add_input. cbv zeta. change (1 =? 0) with false. change (1 =? 1) with true. cbv iota. rewrite one_byte by lia. change (negb (2 =? 2)) with false. cbv iota.
  destruct (body_plain (wire_out o) B L PL) as [_ ->].
  pose proof (txout_parse_wire (im_out x) o []) as T. rewrite app_nil_r in T. rewrite T by auto. rewrite bind_ok. cbv beta zeta. cbn [fst snd]. reflexivity.
Qed.

(** A partial signature. *)
Lemma sec_bytes_ok : forall c x y, bytes_ok (sec_bytes c x y).
Proof.
  intros c x y. unfold sec_bytes. destruct c.
  - constructor; [unfold byte_ok; pose proof (Z.mod_pos_bound y 2); lia|apply be_bytes_ok].
  - constructor; [unfold byte_ok; lia|]. apply bytes_ok_app; split; apply be_bytes_ok.
Qed.
Lemma pair_of_sig_t : forall t g pair, 0 <= t < 256 -> psig_typed t g pair -> psig_ok g ->
  pair_ok pair /\ len (fst pair) = 1 + pt_length (g_comp g) /\ len (snd pair) <= 73.
Proof.
  intros t g pair T (d & D & ->) (O & R & RS). cbn [fst snd].
  assert (PL : 33 <= pt_length (g_comp g) <= 65) by (unfold pt_length; destruct (g_comp g); lia).
  assert (RG : 8 <= len d <= 72).
  { destruct (der_sig_of _ _ _ D R RS) as (r & s & L1 & B1 & L2 & B2 & _ & _ & ->). apply der_of_range; auto. }
  assert (BD : bytes_ok d).
  { destruct D as (a & b & (Ba & _) & (Bb & _) & ->). rewrite !len_app, !len_cons, !len_nil in RG. pose proof (len_nonneg _ a). pose proof (len_nonneg _ b).
    repeat (apply bytes_ok_app; split); auto; repeat (apply Forall_cons; [unfold byte_ok; lia|]); apply Forall_nil. }
  rewrite len_cons, sec_len. split; [|split; [reflexivity|rewrite len_app; change (len [t]) with 1; lia]].
  unfold pair_ok. cbn [fst snd]. rewrite len_cons, sec_len, len_app. change (len [t]) with 1.
  split; [discriminate|]. split; [constructor; [unfold byte_ok; lia|apply sec_bytes_ok]|]. split; [lia|]. split; [|lia].
  apply bytes_ok_app. split; [auto|apply byte1; lia].
Qed.
Lemma pair_of_sig : forall g pair, psig_pair g pair -> psig_ok g ->
  pair_ok pair /\ len (fst pair) = 1 + pt_length (g_comp g) /\ len (snd pair) <= 73.
Proof. intros g pair. apply pair_of_sig_t. lia. Qed.
Lemma parse_point_ok : forall c x y, on_curve x y -> parse_point garbage (sec_bytes c x y) = Ok (mkPt (coords x y) c DONE (pt_length c)).
Proof.
  intros c x y O. unfold parse_point. pose proof (pt_whole garbage pt_new 0 c x y []) as H. rewrite app_nil_r in H.
  rewrite H; auto. repeat split; try reflexivity. apply bytes_ok_zeros.
Qed.
Lemma grow_ok : forall {A} (l : list A) x, len l < 255 -> grow l x = Ok (l ++ [x]).
Proof. intros A l x H. unfold grow. pose proof (len_nonneg _ l). rewrite u8_id by lia. destruct (Z.eqb_spec (len l + 1) 0); [lia|reflexivity]. Qed.
Lemma key_length : forall c k, bytes_ok k -> 0 <= c < 256 -> (len k = 33 \/ len k = 65) ->
  negb (script_length (parsed_script (c :: k)) =? 35) && negb (script_length (parsed_script (c :: k)) =? 67) = false.
Proof.
  intros c k B C L. rewrite plen by (try (constructor; auto); rewrite len_cons; lia). rewrite len_cons. destruct L as [-> | ->]; reflexivity.
Qed.
Lemma sec_33_65 : forall c x y, len (sec_bytes c x y) = 33 \/ len (sec_bytes c x y) = 65.
Proof. intros. rewrite sec_len. unfold pt_length. destruct c; auto. Qed.
Lemma entry_sig_t : forall t x i g pair, 0 <= t < 256 -> psig_typed t g pair -> psig_ok g -> len (im_sigs x) < 255 ->
  exists e, psig_holds e g /\ in_entry x i pair = Ok (mkInMeta (im_out x) (im_ders x) (im_redeem x) (im_witness x) (im_sigs x ++ [e]), 1).
Proof.
  intros t x i g pair T PP O L. destruct (pair_of_sig_t t g pair T PP O) as ((NE & BK & LK & BV & LV) & KL & VL).
  destruct PP as (d & D & ->). destruct O as (O & R & RS). cbn [fst snd] in *.
  assert (PL : 33 <= pt_length (g_comp g) <= 65) by (unfold pt_length; destruct (g_comp g); lia).
  destruct (der_parses sig_new _ _ d [t] eq_refl D R RS) as (sg & SP & SD & SH).
  exists (mkPt (coords (g_x g) (g_y g)) (g_comp g) DONE (pt_length (g_comp g)), sg). split; [repeat split; auto; apply SH|].
  unfold in_entry. cbn [fst snd]. rewrite first_byte by (auto; lia). rewrite bind_ok. cbv beta. unfold add_input. cbv zeta.
  change (2 =? 0) with false. change (2 =? 1) with false. change (2 =? 2) with true. cbv iota.
  rewrite key_length by (solve [apply sec_bytes_ok | lia | apply sec_33_65]).
  rewrite (wire_short (2 :: _)) by lia. cbn [skipn]. rewrite parse_point_ok, bind_ok by auto. cbv beta. cbn [pt_status pstatus_eqb negb].
  rewrite wire_short by lia. cbn [skipn]. rewrite SP, bind_ok. cbv beta zeta. cbn [fst]. rewrite SD. cbn [pstatus_eqb negb].
  rewrite grow_ok by auto. rewrite bind_ok. reflexivity.
Qed.
Lemma entry_sig : forall x i g pair, psig_pair g pair -> psig_ok g -> len (im_sigs x) < 255 ->
  exists e, psig_holds e g /\ in_entry x i pair = Ok (mkInMeta (im_out x) (im_ders x) (im_redeem x) (im_witness x) (im_sigs x ++ [e]), 1).
Proof. intros x i g pair. apply entry_sig_t. lia. Qed.

(** A derivation path. *)
Lemma path_len : forall path, len (path_bytes path) = 4 * len path.
Proof. induction path as [|w t IH]; [reflexivity|]. cbn [path_bytes flat_map] in *. rewrite len_app, len_cons, len_le_bytes. fold (path_bytes t). lia. Qed.
Lemma path_ok : forall path, bytes_ok (path_bytes path).
Proof. induction path as [|w t IH]; [constructor|]. cbn [path_bytes flat_map]. apply bytes_ok_app. split; [apply le_bytes_ok|exact IH]. Qed.
Lemma path_words_ok : forall path pre, Forall (fun w => 0 <= w < 2^32) path ->
  path_words (length path) (pre ++ path_bytes path) (length pre) = Ok path.
Proof.
  induction path as [|w t IH]; intros pre P; [reflexivity|]. apply Forall_cons_iff in P as [P1 P2]. cbn [length path_words path_bytes flat_map].
  fold (path_bytes t). rewrite slice_ok by (rewrite !app_length, le_bytes_length; lia).
  rewrite skipn_app_len by reflexivity. rewrite firstn_app_len by (rewrite le_bytes_length; reflexivity). rewrite bind_ok. cbv beta.
  specialize (IH (pre ++ le_bytes 4 w) P2). rewrite <- app_assoc, app_length, le_bytes_length in IH. rewrite IH, bind_ok.
  rewrite littleEndianToInt_mod by apply le_bytes_ok. rewrite le_val_le_bytes. change (256 ^ Z.of_nat 4) with (2^32).
  rewrite (Z.mod_small w (2^32)) by lia. rewrite Z.mod_small by lia. reflexivity.
Qed.
Lemma deriv_ok : forall ders c c0 x y fp path, on_curve x y -> 0 <= c0 < 256 -> bytes_ok fp -> len fp = 4 -> Forall (fun w => 0 <= w < 2^32) path ->
  len path < 256 -> len path <> 62 -> len ders < 255 ->
  add_deriv garbage ders (parsed_script (c0 :: sec_bytes c x y)) (parsed_script (fp ++ path_bytes path))
    (wire_bytes (c0 :: sec_bytes c x y)) (wire_bytes (fp ++ path_bytes path)) =
  Ok (ders ++ [mkDer (mkPt (coords x y) c DONE (pt_length c)) fp path true], 1).
Proof.
  intros ders c c0 x y fp path O C B F P L NL LD. unfold add_deriv. pose proof (sec_33_65 c x y) as S.
  rewrite key_length by (auto; apply sec_bytes_ok).
  rewrite (wire_short (c0 :: _)) by (rewrite len_cons; lia). cbn [skipn]. rewrite parse_point_ok, bind_ok by auto. cbv beta. cbn [pt_status]. cbv zeta.
  set (v := fp ++ path_bytes path). pose proof (len_nonneg _ path).
  assert (LV : len v = 4 + 4 * len path) by (unfold v; rewrite len_app, path_len; lia).
  assert (BV : bytes_ok v) by (apply bytes_ok_app; split; [auto|apply path_ok]).
  destruct (body_plain v BV ltac:(lia) ltac:(unfold plain_length; lia)) as [BA _]. rewrite BA.
  assert (SL : script_length (parsed_script v) = len (compact_size (len v)) + len v) by (rewrite parsed_script_length, len_wire_bytes by (auto; lia); reflexivity).
  rewrite SL. replace (len (compact_size (len v)) + len v - len (compact_size (len v)) - 4) with (4 * len path) by lia.
  rewrite u64_id by lia. rewrite Z.mul_comm, Z.div_mul, u8_id by lia.
  set (cs := compact_size (len v)). replace (Z.to_nat (len cs)) with (length cs) by (unfold len; lia).
  replace (Z.to_nat (len path)) with (length path) by (unfold len; lia).
  unfold wire_bytes. fold cs. unfold v. rewrite slice_ok by (rewrite !app_length; unfold len in *; lia).
  rewrite skipn_app_len by reflexivity. rewrite firstn_app_len by (unfold len in *; lia). rewrite bind_ok. cbv beta.
  pose proof (path_words_ok path (cs ++ fp) P) as W. rewrite <- app_assoc, app_length in W. replace (length fp) with 4%nat in W by (unfold len in *; lia).
  rewrite W, bind_ok. cbv beta. rewrite grow_ok by auto. reflexivity.
Qed.
Lemma entry_out_deriv : forall m c x y fp path, on_curve x y -> bytes_ok fp -> len fp = 4 -> Forall (fun w => 0 <= w < 2^32) path ->
  len path < 256 -> len path <> 62 -> len (om_ders m) < 255 ->
  out_entry m (2 :: sec_bytes c x y, fp ++ path_bytes path) =
  Ok (mkOutMeta (om_ders m ++ [mkDer (mkPt (coords x y) c DONE (pt_length c)) fp path true]) (om_redeem m) (om_witness m), 1).
Proof.
  intros m c x y fp path O B F P L NL LD. unfold out_entry. cbn [fst snd]. pose proof (sec_33_65 c x y) as S.
  rewrite first_byte by (solve [rewrite ?len_cons; lia | constructor; [unfold byte_ok; lia|apply sec_bytes_ok]]). rewrite bind_ok. cbv beta. unfold add_output.
  change (2 =? 0) with false. change (2 =? 1) with false. change (2 =? 2) with true. cbv iota. rewrite deriv_ok by (auto; lia). reflexivity.
Qed.
(** A value too short for the fingerprint: bytes behind it are read. *)
Lemma deriv_short : forall ders c c0 x y v, on_curve x y -> 0 <= c0 < 256 -> bytes_ok v -> len v < 4 ->
  add_deriv garbage ders (parsed_script (c0 :: sec_bytes c x y)) (parsed_script v) (wire_bytes (c0 :: sec_bytes c x y)) (wire_bytes v) = UB.
Proof.
  intros ders c c0 x y v O C B L. unfold add_deriv. pose proof (sec_33_65 c x y) as S.
  rewrite key_length by (auto; apply sec_bytes_ok).
  rewrite (wire_short (c0 :: _)) by (rewrite len_cons; lia). cbn [skipn]. rewrite parse_point_ok, bind_ok by auto. cbv beta. cbn [pt_status]. cbv zeta.
  destruct (body_plain v B ltac:(lia) ltac:(unfold plain_length; lia)) as [BA _]. rewrite BA. rewrite wire_short by lia.
  unfold compact_size. destruct (Z.ltb_spec (len v) 253); [|lia]. change (len [len v]) with 1. change (Z.to_nat 1) with 1%nat.
  unfold slice. destruct (Nat.leb_spec (1 + 4) (length (len v :: v))) as [K|K]; [cbn [length] in K; unfold len in *; lia|]. reflexivity.
Qed.

(** A previous transaction. *)
Lemma list_eqb_eq : forall a b, list_eqb a b = true <-> a = b.
Proof.
  induction a as [|x a IH]; intros [|y b]; cbn [list_eqb]; split; intros H; try discriminate; auto.
  - apply andb_prop in H as [E F]. apply Z.eqb_eq in E as ->. f_equal. apply IH, F.
  - injection H as -> ->. rewrite Z.eqb_refl. apply IH. reflexivity.
Qed.
Lemma entry_prev : forall x i b y res, bytes_ok b -> len b < 2^31 -> plain_length (len b) -> in_entry x i ([0], b) = Ok (y, res) -> 0 <= res ->
  exists t n r o, tx_parse tx_new b = Ok (t, n, r) /\ t_status t = DONE /\ tx_hash dsha t = Ok (ti_hash i) /\
    at_ptr (Some (t_outs t)) (ti_index i) = Ok o /\ ti_index i < len (t_outs t) /\
    y = mkInMeta (mkTxout (to_tmp o) (to_amount o) (script_assign (to_script (im_out x)) (to_script o)) (to_status o) (to_parsed o))
           (im_ders x) (im_redeem x) (im_witness x) (im_sigs x).
Proof.
  intros x i b y res B L PL E R. unfold in_entry in E. cbn [fst snd] in E. rewrite first_byte in E by (try reflexivity; apply byte1; lia). rewrite bind_ok in E. cbv beta in E.
  unfold add_input in E. cbv zeta in E. change (0 =? 0) with true in E. cbv iota in E. rewrite one_byte in E by lia. change (negb (2 =? 2)) with false in E. cbv iota in E.
  destruct (body_plain b B L PL) as [_ BE]. rewrite BE in E.
  destruct (tx_parse tx_new b) as [[[t n] r]|]; [|discriminate]. rewrite bind_ok in E. cbv beta in E. cbn [fst snd] in E.
  destruct (t_status t) eqn:ST; try (injection E as <- <-; lia).
  destruct (tx_hash dsha t) as [h|] eqn:TH; [|discriminate]. rewrite bind_ok in E. cbv beta in E.
  destruct (list_eqb h (ti_hash i)) eqn:LE; cbn [negb] in E; [|injection E as <- <-; lia]. apply list_eqb_eq in LE as ->.
  destruct (Z.leb_spec (len (t_outs t)) (ti_index i)); [injection E as <- <-; lia|].
  destruct (at_ptr (Some (t_outs t)) (ti_index i)) as [o|] eqn:A; [|discriminate]. rewrite bind_ok in E. injection E as <- <-.
  exists t, n, r, o. repeat split; auto.
Qed.
Lemma entry_prev_wire : forall x i w, tx_ok w -> Forall wit_ok (s_ins w) -> 1 <= len (s_ins w) < 253 -> len (s_outs w) < 253 ->
  bytes_ok (wire_tx w) -> len (wire_tx w) < 2^31 -> plain_length (len (wire_tx w)) -> dsha (wire_legacy w) = ti_hash i ->
  0 <= ti_index i < len (s_outs w) ->
  exists o, nth_error (s_outs w) (Z.to_nat (ti_index i)) = Some o /\
  in_entry x i ([0], wire_tx w) = Ok (mkInMeta (mkTxout (le_bytes 8 (so_value o)) (so_value o) (script_assign (to_script (im_out x)) (parsed_script (so_script o))) DONE (len (wire_out o)))
    (im_ders x) (im_redeem x) (im_witness x) (im_sigs x), 1).
Proof.
  intros x i w K W NI NO B L PL H IX.
  destruct (nth_error (s_outs w) (Z.to_nat (ti_index i))) as [o|] eqn:N.
  2:{ apply nth_error_None in N. unfold len in *. lia. }
  exists o. split; auto. unfold in_entry. cbn [fst snd]. rewrite first_byte by (try reflexivity; apply byte1; lia). rewrite bind_ok. cbv beta.
  unfold add_input. cbv zeta. change (0 =? 0) with true. cbv iota. rewrite one_byte by lia. change (negb (2 =? 2)) with false. cbv iota.
  destruct (body_plain (wire_tx w) B L PL) as [_ BE]. rewrite BE.
  pose proof (tx_parse_wire tx_new w [] eq_refl K W NI NO) as T. rewrite app_nil_r in T. rewrite T, bind_ok. cbv beta. cbn [fst snd]. change (t_status (parsed_tx w)) with DONE. cbv iota.
  unfold tx_hash. rewrite (tx_hash_data_ok _ _ (parsed_tx_holds w K W)) by lia. rewrite !bind_ok. cbv beta. rewrite H.
  assert (LE : list_eqb (ti_hash i) (ti_hash i) = true) by (apply list_eqb_eq; reflexivity). rewrite LE. cbn [negb].
  cbn [parsed_tx t_outs]. assert (LM : len (map parsed_out (s_outs w)) = len (s_outs w)) by (unfold len; rewrite map_length; reflexivity).
  rewrite LM. destruct (Z.leb_spec (len (s_outs w)) (ti_index i)); [lia|].
  unfold at_ptr. destruct (Z.ltb_spec (ti_index i) 0); [lia|]. rewrite (map_nth_error parsed_out _ _ N). rewrite bind_ok. reflexivity.
Qed.
End Entries.
