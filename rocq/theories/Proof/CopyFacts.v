(** Copies agree with their originals. *)
From Coq Require Import Lia.
From Verif Require Import Base.Bytes Base.BytesFacts Model.Conversion Model.Stream Model.Script Model.Tx Model.Signature Model.Point Model.HD Model.PSBT Model.Electrum Model.Copy
  Spec.Codecs Spec.Wire Spec.Objects Spec.Copy Spec.PSBT Spec.PSBTSign Spec.Electrum.
Open Scope Z_scope.

(** * Scripts and witnesses *)
Lemma loop_stops fuel base n arr : forall w w', write_loop fuel base n arr w = Ok w' -> w_available w' && (w_pos w' <? base + n) = false.
Proof.
  induction fuel as [|f IH]; intros w w' E; cbn [write_loop] in E; destruct (w_available w && (w_pos w <? base + n)) eqn:C.
  - discriminate E.
  - injection E as <-. exact C.
  - destruct (aget arr (w_pos w - base)); [|discriminate E]. cbn [bind] in E. exact (IH _ _ E).
  - injection E as <-. exact C.
Qed.
Lemma loop_none fuel base arr w : w_available w && (w_pos w <? base + 0) = false -> write_loop fuel base 0 arr w = Ok w.
Proof. intros C. destruct fuel; cbn [write_loop]; rewrite C; reflexivity. Qed.

(** A script assigned to a new one. *)
Definition fresh (s : script) : script := script_assign script_new s.
Lemma fresh_eq s : fresh s = if 0 <? sc_len s then mkScript (sc_arr s) (sc_len s) 0 DONE 0 else script_new.
Proof. reflexivity. Qed.
Lemma fresh_len s : 0 <= sc_len s -> sc_len (fresh s) = sc_len s.
Proof. intros L. rewrite fresh_eq. destruct (0 <? sc_len s) eqn:E; [reflexivity|]. apply Z.ltb_ge in E. cbn [sc_len script_new]. lia. Qed.
Lemma fresh_length s : 0 <= sc_len s -> script_length (fresh s) = script_length s.
Proof. intros L. unfold script_length. rewrite fresh_len by exact L. reflexivity. Qed.
Lemma fresh_stream s cap off : 0 <= sc_len s -> script_to_stream (fresh s) cap off = script_to_stream s cap off.
Proof.
  intros L. unfold script_to_stream. rewrite fresh_len by exact L. destruct (varint_arr (sc_len s)) as [arr|]; [|reflexivity]. cbn [bind].
  destruct (write_loop 10 0 (u8 (lenVarInt (sc_len s))) arr (mkWst off cap [])) as [w1|] eqn:W; [|reflexivity]. cbn [bind].
  rewrite fresh_eq. destruct (0 <? sc_len s) eqn:E; [reflexivity|]. apply Z.ltb_ge in E. assert (Z0 : sc_len s = 0) by lia. rewrite Z0 in *.
  apply loop_stops in W. rewrite !loop_none; [reflexivity| |]; rewrite Z.add_0_r; exact W.
Qed.
Lemma fresh_bytes s : script_bytes (fresh s) = script_bytes s.
Proof.
  unfold script_bytes. rewrite fresh_eq. destruct (0 <? sc_len s) eqn:E; [reflexivity|]. apply Z.ltb_ge in E.
  replace (Z.to_nat (sc_len s)) with 0%nat by lia. reflexivity.
Qed.
Lemma fresh_holds s bs : script_holds s bs -> script_holds (fresh s) bs.
Proof.
  intros (A & L & B & M). unfold script_holds. rewrite fresh_eq. destruct (0 <? sc_len s) eqn:E; [repeat split; assumption|].
  apply Z.ltb_ge in E. destruct bs as [|b bs]; [repeat split; auto|]. exfalso. rewrite L, len_cons in E. pose proof (len_nonneg _ bs). lia.
Qed.
Lemma holds_len s bs : script_holds s bs -> 0 <= sc_len s.
Proof. intros (_ & L & _). rewrite L. apply len_nonneg. Qed.

Definition wfresh (w : witness) : witness := witness_assign witness_new w.
Lemma wfresh_eq w : wfresh w = mkWitness (if 0 <? wi_len w then wi_arr w else []) (if 0 <? wi_len w then wi_len w else 0) (wi_num w) 0 0 0 0 0 DONE 0.
Proof. reflexivity. Qed.
Lemma wfresh_len w : 0 <= wi_len w -> wi_len (wfresh w) = wi_len w.
Proof. intros L. rewrite wfresh_eq. cbn [wi_len]. destruct (0 <? wi_len w) eqn:E; [reflexivity|]. apply Z.ltb_ge in E. lia. Qed.
Lemma wfresh_num w : wi_num (wfresh w) = wi_num w.
Proof. reflexivity. Qed.
Lemma wfresh_length w : 0 <= wi_len w -> witness_length (wfresh w) = witness_length w.
Proof. intros L. unfold witness_length. rewrite wfresh_len by exact L. reflexivity. Qed.
Lemma wfresh_stream w cap off : 0 <= wi_len w -> witness_to_stream (wfresh w) cap off = witness_to_stream w cap off.
Proof.
  intros L. unfold witness_to_stream. rewrite wfresh_len by exact L. rewrite wfresh_num. destruct (varint_arr (wi_num w)) as [arr|]; [|reflexivity]. cbn [bind].
  destruct (write_loop 10 0 (u8 (lenVarInt (wi_num w))) arr (mkWst off cap [])) as [w1|] eqn:W; [|reflexivity]. cbn [bind].
  rewrite wfresh_eq. cbn [wi_arr]. destruct (0 <? wi_len w) eqn:E; [reflexivity|]. apply Z.ltb_ge in E. assert (Z0 : wi_len w = 0) by lia. rewrite Z0 in *.
  apply loop_stops in W. rewrite !loop_none; [reflexivity| |]; rewrite Z.add_0_r; exact W.
Qed.
Lemma wfresh_bytes w : firstn (Z.to_nat (wi_len (wfresh w))) (wi_arr (wfresh w)) = firstn (Z.to_nat (wi_len w)) (wi_arr w).
Proof.
  rewrite wfresh_eq. cbn [wi_arr wi_len]. destruct (0 <? wi_len w) eqn:E; [reflexivity|]. apply Z.ltb_ge in E.
  replace (Z.to_nat (wi_len w)) with 0%nat by lia. reflexivity.
Qed.
Lemma wfresh_holds w els : witness_holds w els -> witness_holds (wfresh w) els.
Proof.
  intros (A & L & N & B & M). unfold witness_holds. rewrite wfresh_eq. cbn [wi_arr wi_len wi_num].
  destruct (0 <? wi_len w) eqn:E; [repeat split; assumption|].
  apply Z.ltb_ge in E. destruct (flat_map wire_bytes els) as [|b bs] eqn:F; [repeat split; auto|]. exfalso. rewrite L, len_cons in E. pose proof (len_nonneg _ bs). lia.
Qed.
Lemma wholds_len w els : witness_holds w els -> 0 <= wi_len w.
Proof. intros (_ & L & _). rewrite L. apply len_nonneg. Qed.

(** * Transactions *)
Definition icopy : txin -> txin := txin_assign txin_new.
Definition ocopy : txout -> txout := txout_assign txout_new.
Lemma icopy_eq i : icopy i = mkTxin (ti_hash i) (ti_index i) (fresh (ti_script i)) (ti_seq i) (wfresh (ti_wit i)) (ti_status i) (ti_parsed i).
Proof. reflexivity. Qed.
Lemma ocopy_eq o : ocopy o = mkTxout (to_tmp o) (to_amount o) (fresh (to_script o)) (to_status o) (to_parsed o).
Proof. reflexivity. Qed.
Lemma tx_copy_eq t : tx_copy t = mkTx (t_version t) (map icopy (t_ins t)) (map ocopy (t_outs t)) (t_lock t) (t_segflag t) (t_status t) (t_parsed t).
Proof. reflexivity. Qed.
Definition iok (i : txin) : Prop := 0 <= sc_len (ti_script i) /\ 0 <= wi_len (ti_wit i).
Definition ook (o : txout) : Prop := 0 <= sc_len (to_script o).

Lemma icopy_length i : iok i -> txin_length (icopy i) = txin_length i.
Proof. intros (A & _). unfold txin_length. rewrite icopy_eq. cbn [ti_script]. rewrite fresh_length by exact A. reflexivity. Qed.
Lemma ocopy_length o : ook o -> txout_length (ocopy o) = txout_length o.
Proof. intros A. unfold txout_length. rewrite ocopy_eq. cbn [to_script]. rewrite fresh_length by exact A. reflexivity. Qed.
Lemma write_obj_ext base n s1 s2 w : (forall cap off, s1 cap off = s2 cap off) -> write_obj base n s1 w = write_obj base n s2 w.
Proof. intros E. unfold write_obj. destruct (w_available w && (w_pos w <? base + n)); [|reflexivity]. rewrite E. reflexivity. Qed.
Lemma icopy_stream i cap off : iok i -> txin_to_stream (icopy i) cap off = txin_to_stream i cap off.
Proof.
  intros (A & _). unfold txin_to_stream. rewrite icopy_eq. cbn [ti_script ti_hash ti_index ti_seq]. rewrite (fresh_length _ A).
  repeat (match goal with |- bind ?x _ = bind ?x _ => destruct x; [|reflexivity]; cbn [bind] end).
  rewrite (write_obj_ext _ _ _ _ _ (fun c o => fresh_stream _ c o A)). reflexivity.
Qed.
Lemma ocopy_stream o cap off : ook o -> txout_to_stream (ocopy o) cap off = txout_to_stream o cap off.
Proof.
  intros A. unfold txout_to_stream. rewrite ocopy_eq. cbn [to_script to_amount]. rewrite ?(fresh_length _ A).
  repeat (match goal with |- bind ?x _ = bind ?x _ => destruct x; [|reflexivity]; cbn [bind] end).
  rewrite (write_obj_ext _ _ _ _ _ (fun c o => fresh_stream _ c o A)). reflexivity.
Qed.
Lemma write_objs_copy {E} (f : E -> E) (P : E -> Prop) (len1 len2 : E -> Z) (s1 s2 : E -> serializer) :
  (forall e, P e -> len1 (f e) = len2 e) -> (forall e cap off, P e -> s1 (f e) cap off = s2 e cap off) ->
  forall l base w, Forall P l -> write_objs len1 s1 (map f l) base w = write_objs len2 s2 l base w.
Proof.
  intros EL ES. induction l as [|e l IH]; intros base w H; [reflexivity|]. cbn [map write_objs].
  inversion H as [|? ? H1 H2]; subst. rewrite (EL e H1). rewrite (write_obj_ext _ _ _ _ _ (fun c o => ES e c o H1)).
  destruct (write_obj base (len2 e) (s2 e) w); [|reflexivity]. cbn [bind]. apply IH, H2.
Qed.
Lemma hash_objs_copy {E} (f : E -> E) (P : E -> Prop) (s1 s2 : E -> serializer) :
  (forall e cap off, P e -> s1 (f e) cap off = s2 e cap off) -> forall l, Forall P l -> hash_objs s1 (map f l) = hash_objs s2 l.
Proof.
  intros ES. induction l as [|e l IH]; intros H; [reflexivity|]. cbn [map hash_objs]. inversion H as [|? ? H1 H2]; subst.
  unfold hash_obj. rewrite (ES e None 0 H1), (IH H2). reflexivity.
Qed.
Lemma icopy_segwit l : existsb txin_isSegwit (map icopy l) = existsb txin_isSegwit l.
Proof. induction l as [|i l IH]; [reflexivity|]. cbn [map existsb]. rewrite IH. reflexivity. Qed.
Lemma len_map' {A B} (f : A -> B) l : len (map f l) = len l.
Proof. unfold len. rewrite map_length. reflexivity. Qed.
Lemma map_copy {A B} (f : A -> A) (g h : A -> B) (P : A -> Prop) l : (forall x, P x -> g (f x) = h x) -> Forall P l -> map g (map f l) = map h l.
Proof. intros E H. rewrite map_map. apply map_ext_in. intros a I. apply E. rewrite Forall_forall in H. apply H, I. Qed.

Lemma copy_stream t cap off : sizes_ok t -> tx_to_stream (tx_copy t) cap off = tx_to_stream t cap off.
Proof.
  intros (I & O). unfold tx_to_stream, tx_isSegwit. rewrite tx_copy_eq. cbn [t_version t_ins t_outs t_lock]. rewrite icopy_segwit, !len_map'.
  repeat (match goal with |- bind ?x _ = bind ?x _ => destruct x; [|reflexivity]; cbn [bind] end).
  rewrite (write_objs_copy icopy iok txin_length txin_length txin_to_stream txin_to_stream icopy_length icopy_stream _ _ _ I).
  match goal with |- bind ?x _ = bind ?x _ => destruct x as [[w5 base5]|]; [|reflexivity]; cbn [bind] end.
  repeat (match goal with |- bind ?x _ = bind ?x _ => destruct x; [|reflexivity]; cbn [bind] end).
  rewrite (write_objs_copy ocopy ook txout_length txout_length txout_to_stream txout_to_stream ocopy_length ocopy_stream _ _ _ O).
  match goal with |- bind ?x _ = bind ?x _ => destruct x as [[w7 base7]|]; [|reflexivity]; cbn [bind] end.
  destruct (existsb txin_isSegwit (t_ins t)); [|reflexivity].
  rewrite (write_objs_copy icopy iok (fun i => witness_length (ti_wit i)) (fun i => witness_length (ti_wit i)) (fun i => witness_to_stream (ti_wit i)) (fun i => witness_to_stream (ti_wit i))
    (fun e H => wfresh_length _ (proj2 H)) (fun e c o H => wfresh_stream _ c o (proj2 H)) _ _ _ I).
  reflexivity.
Qed.
Lemma copy_length t : sizes_ok t -> tx_length (tx_copy t) = tx_length t.
Proof.
  intros (I & O). unfold tx_length, tx_isSegwit. rewrite tx_copy_eq. cbn [t_ins t_outs]. rewrite icopy_segwit, !len_map'.
  rewrite (map_copy ocopy txout_length txout_length ook _ ocopy_length O).
  rewrite (map_copy icopy _ (fun i => txin_length i + (if existsb txin_isSegwit (t_ins t) then witness_length (ti_wit i) else 0)) iok _); [reflexivity| |exact I].
  intros i H. rewrite (icopy_length i H). rewrite icopy_eq. cbn [ti_wit]. rewrite (wfresh_length _ (proj2 H)). reflexivity.
Qed.
Lemma copy_ids dsha t : sizes_ok t -> tx_txid dsha (tx_copy t) = tx_txid dsha t /\ tx_wtxid dsha (tx_copy t) = tx_wtxid dsha t.
Proof.
  intros (I & O). unfold tx_txid, tx_wtxid, tx_hash, tx_hash_data, tx_whash. rewrite tx_copy_eq. cbn [t_version t_ins t_outs t_lock]. rewrite !len_map'.
  rewrite (hash_objs_copy icopy iok txin_to_stream txin_to_stream icopy_stream _ I).
  rewrite (hash_objs_copy ocopy ook txout_to_stream txout_to_stream ocopy_stream _ O).
  rewrite (hash_objs_copy icopy iok (fun i => witness_to_stream (ti_wit i)) (fun i => witness_to_stream (ti_wit i)) (fun e c o H => wfresh_stream _ c o (proj2 H)) _ I).
  split; reflexivity.
Qed.
Lemma F2_map {A} (R : A -> A -> Prop) (f : A -> A) : (forall x, R (f x) x) -> forall l, Forall2 R (map f l) l.
Proof. intros H. induction l; cbn [map]; constructor; auto. Qed.
Lemma F2_map_l {A B} (R : A -> B -> Prop) (f : A -> A) : (forall x y, R x y -> R (f x) y) -> forall l m, Forall2 R l m -> Forall2 R (map f l) m.
Proof. intros H l m F. induction F; cbn [map]; constructor; auto. Qed.
Lemma icopy_same i : same_in (icopy i) i.
Proof. rewrite icopy_eq. unfold same_in. cbn [ti_hash ti_index ti_script ti_seq ti_wit]. rewrite fresh_bytes, wfresh_bytes. repeat split. Qed.
Lemma ocopy_same o : same_out (ocopy o) o.
Proof. rewrite ocopy_eq. unfold same_out. cbn [to_amount to_script]. rewrite fresh_bytes. split; reflexivity. Qed.
Lemma copy_same t : same_tx (tx_copy t) t.
Proof.
  rewrite tx_copy_eq. unfold same_tx. cbn [t_version t_lock t_status t_ins t_outs].
  split; [reflexivity|]. split; [reflexivity|]. split; [reflexivity|]. split; apply F2_map; [exact icopy_same|exact ocopy_same].
Qed.
Lemma icopy_holds i v : txin_holds i v -> txin_holds (icopy i) v.
Proof.
  intros (A & B & C & D & E & F & G & H & J). rewrite icopy_eq. unfold txin_holds. cbn [ti_hash ti_index ti_script ti_seq ti_wit].
  repeat (split; try assumption); try (apply fresh_holds in F; apply F); apply wfresh_holds in J; apply J.
Qed.
Lemma ocopy_holds o v : txout_holds o v -> txout_holds (ocopy o) v.
Proof. intros (A & B & C). rewrite ocopy_eq. unfold txout_holds. cbn [to_amount to_script]. split; [exact A|]. split; [exact B|]. apply fresh_holds, C. Qed.
Lemma copy_holds t v : tx_holds t v -> tx_holds (tx_copy t) v.
Proof.
  intros (A & B & C & D & E & F). rewrite tx_copy_eq. unfold tx_holds. cbn [t_version t_lock t_ins t_outs].
  split; [exact A|]. split; [exact B|]. split; [exact C|]. split; [exact D|].
  split; apply F2_map_l; auto using icopy_holds, ocopy_holds.
Qed.
Lemma holds_sizes t v : tx_holds t v -> sizes_ok t.
Proof.
  intros (_ & _ & _ & _ & E & F). split.
  - induction E as [|i s l m H _ IH]; constructor; auto. destruct H as (_ & _ & _ & _ & _ & S1 & _ & _ & W1). split; [exact (holds_len _ _ S1)|exact (wholds_len _ _ W1)].
  - induction F as [|o s l m H _ IH]; constructor; auto. destruct H as (_ & _ & S1). exact (holds_len _ _ S1).
Qed.
(** Parsing with a copy. *)
Lemma copy_parse t st : t_status t = DONE -> tx_parse (tx_copy t) st = tx_parse t st.
Proof. intros D. unfold tx_parse. rewrite tx_copy_eq. cbn [t_status]. rewrite D. reflexivity. Qed.
(** A copy made while the script of an input is being read. *)
Lemma loop_past {S0} limit pos (step : S0 -> Z -> Z -> outcome S0) acc st : limit <= pos -> read_loop_o limit pos step acc st = Ok (acc, pos, st).
Proof. intros L. destruct st; cbn [read_loop_o]; [reflexivity|]. replace (pos <? limit) with false by dlia. reflexivity. Qed.
Lemma in_ub i c st : ti_status i = INCOMPLETE -> 36 < ti_parsed i < 36 + script_length (ti_script i) -> 0 <= sc_len (ti_script i) ->
  txin_parse (icopy i) (c :: st) = UB.
Proof.
  intros S1 P L. unfold txin_parse. rewrite icopy_eq. cbn [ti_status]. rewrite S1. unfold txin_parse_body. cbn [ti_parsed ti_hash ti_index ti_script ti_seq ti_wit].
  rewrite loop_past by lia. cbn [bind]. rewrite loop_past by lia. cbn [bind]. replace (ti_parsed i =? 36) with false by dlia. cbn [bind].
  assert (F : sc_status (fresh (ti_script i)) = DONE) by (rewrite fresh_eq; destruct (0 <? sc_len (ti_script i)); reflexivity).
  rewrite F. cbn [bind]. rewrite F. rewrite (fresh_length _ L). cbn [read_loop_o]. replace (ti_parsed i + 0 + 0 <? 40 + script_length (ti_script i)) with true by dlia.
  unfold acc32 at 1, shl_int at 1. replace (0 <=? 8 * (ti_parsed i + 0 + 0 - (36 + script_length (ti_script i)))) with false by dlia. reflexivity.
Qed.
Lemma more_ub : forall l1 i l2 c st, Forall (fun i => ti_status i = DONE) l1 -> ti_status i = INCOMPLETE -> 36 < ti_parsed i < 36 + script_length (ti_script i) ->
  0 <= sc_len (ti_script i) -> parse_more txin_parse ti_status (map icopy (l1 ++ i :: l2)) (c :: st) = UB.
Proof.
  induction l1 as [|j l1 IH]; intros i l2 c st D S1 P L; cbn [app map parse_more].
  - rewrite (icopy_eq i) at 1. cbn [ti_status]. rewrite S1. rewrite (in_ub i c st S1 P L). reflexivity.
  - inversion D as [|? ? D1 D2]; subst. rewrite (icopy_eq j) at 1. cbn [ti_status]. rewrite D1. cbn [bind].
    rewrite (icopy_eq j) at 1. cbn [ti_status]. rewrite D1. cbn [pstatus_eqb]. rewrite (IH i l2 c st D2 S1 P L). reflexivity.
Qed.
Lemma halfway t l1 i l2 c st : t_status t = INCOMPLETE -> 6 < t_parsed t -> t_ins t = l1 ++ i :: l2 -> Forall (fun i => ti_status i = DONE) l1 ->
  ti_status i = INCOMPLETE -> 36 < ti_parsed i < 36 + script_length (ti_script i) -> 0 <= sc_len (ti_script i) ->
  tx_parse (tx_copy t) (c :: st) = UB.
Proof.
  intros ST P EI D S1 Q L. unfold tx_parse. rewrite tx_copy_eq. cbn [t_status]. rewrite ST. unfold tx_parse_body.
  cbn [t_parsed t_version t_ins t_segflag t_outs t_lock]. rewrite loop_past by lia. cbn [bind].
  unfold tx_parse_count. replace (t_parsed t =? 4) with false by dlia. cbn [bind]. replace (t_parsed t =? 5) with false by dlia.
  rewrite Bool.andb_false_r. cbn [bind]. replace (t_parsed t =? 6) with false by dlia. rewrite Bool.andb_false_r. cbn [bind].
  rewrite EI, (more_ub l1 i l2 c st D S1 Q L). reflexivity.
Qed.

(** * Arrays behind pointers *)
Lemma ders_copy l : copy_all der_copy l = match ders_free l with Ok _ => Ok l | UB => UB end.
Proof.
  induction l as [|d l IH]; [reflexivity|]. cbn [copy_all ders_free]. unfold der_copy at 1, der_free. destruct (d_set d); [|reflexivity].
  cbn [bind]. rewrite IH. destruct (ders_free l); reflexivity.
Qed.
Definition mcopy (m : inmeta) : inmeta := mkInMeta (ocopy (im_out m)) (im_ders m) (fresh (im_redeem m)) (fresh (im_witness m)) (im_sigs m).
Definition pcopy (m : outmeta) : outmeta := mkOutMeta (om_ders m) (fresh (om_redeem m)) (fresh (om_witness m)).
Lemma copy_all_map {A} (copy : A -> outcome A) (f : A -> A) (ders : A -> list pderiv) :
  (forall m, copy m = match ders_free (ders m) with Ok _ => Ok (f m) | UB => UB end) ->
  forall l, copy_all copy l = match metas_free ders l with Ok _ => Ok (map f l) | UB => UB end.
Proof.
  intros H. induction l as [|m l IH]; [reflexivity|]. cbn [copy_all metas_free map]. rewrite H. destruct (ders_free (ders m)); [|reflexivity].
  cbn [bind]. rewrite IH. destruct (metas_free ders l); reflexivity.
Qed.
Lemma inmeta_copy_eq m : inmeta_copy m = match ders_free (im_ders m) with Ok _ => Ok (mcopy m) | UB => UB end.
Proof. unfold inmeta_copy. rewrite ders_copy. destruct (ders_free (im_ders m)); reflexivity. Qed.
Lemma outmeta_copy_eq m : outmeta_copy m = match ders_free (om_ders m) with Ok _ => Ok (pcopy m) | UB => UB end.
Proof. unfold outmeta_copy. rewrite ders_copy. destruct (ders_free (om_ders m)); reflexivity. Qed.
Definition array {A} (n : Z) (l : option (list A)) : list A := match l with Some l => firstn (Z.to_nat n) l | None => [] end.
Lemma copy_ptr_eq {A} (copy : A -> outcome A) (f : A -> A) (ders : A -> list pderiv) n l : 0 <= n ->
  (forall m, copy m = match ders_free (ders m) with Ok _ => Ok (f m) | UB => UB end) ->
  copy_ptr copy n l = match release ders n l with Ok _ => Ok (map f (array n l)) | UB => UB end.
Proof.
  intros N H. unfold copy_ptr, release. destruct (n =? 0) eqn:E.
  - apply Z.eqb_eq in E. subst n. destruct l; reflexivity.
  - apply Z.eqb_neq in E. replace (0 <? n) with true by dlia. destruct l as [l|]; [|reflexivity]. destruct (len l <? n); [reflexivity|].
    apply (copy_all_map copy f ders H).
Qed.
Lemma metas_free_map {A} (ders : A -> list pderiv) (f : A -> A) : (forall m, ders (f m) = ders m) -> forall l, metas_free ders (map f l) = metas_free ders l.
Proof. intros H. induction l as [|m l IH]; [reflexivity|]. cbn [map metas_free]. rewrite H, IH. reflexivity. Qed.
Lemma release_array {A} (ders : A -> list pderiv) n l : 0 <= n -> release ders n l = Ok tt -> length (array n l) = Z.to_nat n /\ metas_free ders (array n l) = Ok tt.
Proof.
  intros N. unfold release, array. destruct (0 <? n) eqn:E.
  - destruct l as [l|]; [|discriminate]. destruct (len l <? n) eqn:F; [discriminate|]. intros H. split; [|exact H].
    apply Z.ltb_ge in F. rewrite firstn_length. unfold len in F. lia.
  - intros _. replace n with 0 by dlia. destruct l; split; reflexivity.
Qed.
Lemma release_map {A} (ders : A -> list pderiv) (f : A -> A) n l : (forall m, ders (f m) = ders m) -> 0 <= n -> release ders n l = Ok tt ->
  release ders n (Some (map f (array n l))) = Ok tt.
Proof.
  intros H N R. destruct (release_array ders n l N R) as (L & M). unfold release. destruct (0 <? n) eqn:E; [|reflexivity].
  unfold len. rewrite map_length, L. replace (Z.of_nat (Z.to_nat n) <? n) with false by (symmetry; apply Z.ltb_ge; lia).
  rewrite firstn_all2 by (rewrite map_length; lia). rewrite metas_free_map by exact H. exact M.
Qed.
(** * PSBT *)
Definition nin (p : psbt) : Z := len (t_ins (ps_tx p)).
Definition nout (p : psbt) : Z := len (t_outs (ps_tx p)).
Lemma psbt_copy_eq p : psbt_copy p = match psbt_destroy p with
  | Ok _ => Ok (mkPsbt script_new script_new 0 0 (tx_copy (ps_tx p)) (Some (map mcopy (array (nin p) (ps_ins p)))) (Some (map pcopy (array (nout p) (ps_outs p)))) (ps_status p) 0)
  | UB => UB end.
Proof.
  unfold psbt_copy, psbt_destroy, psbt_release. rewrite (copy_ptr_eq _ mcopy im_ders _ _ (len_nonneg _ _) inmeta_copy_eq).
  rewrite (copy_ptr_eq _ pcopy om_ders _ _ (len_nonneg _ _) outmeta_copy_eq). fold (nin p) (nout p).
  destruct (release im_ders (nin p) (ps_ins p)); [|reflexivity]. cbn [bind]. destruct (release om_ders (nout p) (ps_outs p)); reflexivity.
Qed.

Lemma at_copy {A} (ders : A -> list pderiv) (f : A -> A) n l i : 0 <= i < n -> release ders n l = Ok tt ->
  exists m, at_ptr l i = Ok m /\ at_ptr (Some (map f (array n l))) i = Ok (f m).
Proof.
  intros I R. destruct (release_array ders n l ltac:(lia) R) as (L & _). unfold at_ptr. replace (i <? 0) with false by dlia.
  destruct l as [l|]; cbn [array] in *; [|cbn [length] in L; lia].
  assert (LT : (Z.to_nat i < length (firstn (Z.to_nat n) l))%nat) by lia.
  destruct (nth_error (firstn (Z.to_nat n) l) (Z.to_nat i)) as [m|] eqn:N; [|apply nth_error_None in N; lia].
  exists m. rewrite (map_nth_error f _ _ N). split; [|reflexivity].
  rewrite <- (firstn_skipn (Z.to_nat n) l), nth_error_app1 by exact LT. rewrite N. reflexivity.
Qed.
(** Both ways of copying. *)
Definition copied (p q : psbt) : Prop :=
  ps_tx q = tx_copy (ps_tx p) /\ ps_status q = ps_status p /\ psbt_destroy q = Ok tt /\
  (forall i, 0 <= i < nin p -> exists m, at_ptr (ps_ins p) i = Ok m /\ at_ptr (ps_ins q) i = Ok (mcopy m)) /\
  (forall i, 0 <= i < nout p -> exists m, at_ptr (ps_outs p) i = Ok m /\ at_ptr (ps_outs q) i = Ok (pcopy m)).
Lemma nin_copy t : len (t_ins (tx_copy t)) = len (t_ins t).
Proof. apply len_map'. Qed.
Lemma nout_copy t : len (t_outs (tx_copy t)) = len (t_outs t).
Proof. apply len_map'. Qed.
Lemma destroy_parts p : psbt_destroy p = Ok tt -> release im_ders (nin p) (ps_ins p) = Ok tt /\ release om_ders (nout p) (ps_outs p) = Ok tt.
Proof.
  unfold psbt_destroy, psbt_release. fold (nin p) (nout p). destruct (release im_ders (nin p) (ps_ins p)) as [[]|]; [|discriminate]. cbn [bind]. auto.
Qed.
Lemma parts_destroy p : release im_ders (nin p) (ps_ins p) = Ok tt -> release om_ders (nout p) (ps_outs p) = Ok tt -> psbt_destroy p = Ok tt.
Proof. unfold psbt_destroy, psbt_release. fold (nin p) (nout p). intros ->. cbn [bind]. auto. Qed.
Lemma copy_copied p : psbt_destroy p = Ok tt -> exists q, psbt_copy p = Ok q /\ copied p q.
Proof.
  intros D. destruct (destroy_parts p D) as (R1 & R2). rewrite psbt_copy_eq, D. eexists. split; [reflexivity|].
  unfold copied. cbn [ps_tx ps_status ps_ins ps_outs]. split; [reflexivity|]. split; [reflexivity|]. split; [|split].
  - apply parts_destroy; unfold nin, nout; cbn [ps_tx ps_ins ps_outs]; rewrite ?nin_copy, ?nout_copy; apply release_map; auto; apply len_nonneg.
  - intros i I. exact (at_copy im_ders mcopy _ _ i I R1).
  - intros i I. exact (at_copy om_ders pcopy _ _ i I R2).
Qed.
Lemma assign_copied d p : psbt_destroy d = Ok tt -> psbt_destroy p = Ok tt -> exists q, psbt_assign d p = Ok q /\ copied p q.
Proof.
  intros DD D. destruct (destroy_parts p D) as (R1 & R2). unfold psbt_assign. change (psbt_release d) with (psbt_destroy d). rewrite DD. cbn [bind].
  rewrite (copy_ptr_eq _ mcopy im_ders _ _ (len_nonneg _ _) inmeta_copy_eq). fold (nin p). rewrite R1. cbn [bind].
  rewrite (copy_ptr_eq _ pcopy om_ders _ _ (len_nonneg _ _) outmeta_copy_eq). fold (nout p). rewrite R2. cbn [bind].
  eexists. split; [reflexivity|]. unfold copied. cbn [ps_tx ps_status ps_ins ps_outs]. split; [reflexivity|]. split; [reflexivity|]. split; [|split].
  - apply parts_destroy; unfold nin at 1, nout at 1; cbn [ps_tx ps_ins ps_outs]; rewrite ?nin_copy, ?nout_copy.
    + fold (nin p). destruct (0 <? nin p) eqn:E; [apply release_map; auto; apply len_nonneg|]. unfold release. rewrite E. reflexivity.
    + fold (nout p). destruct (0 <? nout p) eqn:E; [apply release_map; auto; apply len_nonneg|]. unfold release. rewrite E. reflexivity.
  - intros i I. replace (0 <? nin p) with true by dlia. exact (at_copy im_ders mcopy _ _ i I R1).
  - intros i I. replace (0 <? nout p) with true by dlia. exact (at_copy om_ders pcopy _ _ i I R2).
Qed.
Lemma copied_same p q : copied p q -> same_psbt q p.
Proof.
  intros (T & S1 & _ & I & O). unfold same_psbt. rewrite T. split; [apply copy_same|]. split; [exact S1|]. split.
  - intros i B. destruct (I i B) as (m & A & C). exists (mcopy m), m. split; [exact C|]. split; [exact A|]. unfold same_inmeta, mcopy. cbn [im_out im_ders im_sigs im_redeem im_witness].
    split; [apply ocopy_same|]. rewrite !fresh_bytes. repeat split.
  - intros i B. destruct (O i B) as (m & A & C). exists (pcopy m), m. split; [exact C|]. split; [exact A|]. unfold same_outmeta, pcopy. cbn [om_ders om_redeem om_witness].
    rewrite !fresh_bytes. repeat split.
Qed.
Lemma copied_sections p q : copied p q -> forall k s cur w, 0 <= s -> write_sections k q s cur w = write_sections k p s cur w.
Proof.
  intros (T & _ & _ & I & _). induction k as [|k IH]; intros s cur w B; [reflexivity|]. cbn [write_sections]. destruct (w_available w); [|reflexivity].
  rewrite T, nin_copy. fold (nin p). destruct ((0 <? s) && (s <? nin p + 1)) eqn:E.
  - apply Bool.andb_true_iff in E. destruct E as (E1 & E2). apply Z.ltb_lt in E1. apply Z.ltb_lt in E2.
    destruct (I (s - 1) ltac:(lia)) as (m & A & C). rewrite A, C. cbn [bind]. change (im_sigs (mcopy m)) with (im_sigs m).
    destruct (write_psigs (im_sigs m) cur w) as [[w1 cur1]|]; [|reflexivity]. cbn [bind]. apply IH. lia.
  - cbn [bind]. apply IH. lia.
Qed.
Lemma write_while_ext s1 s2 : (forall cap off, s1 cap off = s2 cap off) -> forall f base n w, write_while f base n s1 w = write_while f base n s2 w.
Proof.
  intros E. induction f as [|f IH]; intros base n w; cbn [write_while]; [reflexivity|]. destruct (w_available w && (w_pos w <? base + n)); [|reflexivity].
  rewrite (write_obj_ext _ _ _ _ _ E). destruct (write_obj base n s2 w); [|reflexivity]. cbn [bind]. apply IH.
Qed.
Lemma copied_stream p q cap off : copied p q -> sizes_ok (ps_tx p) -> psbt_to_stream q cap off = psbt_to_stream p cap off.
Proof.
  intros C S1. unfold psbt_to_stream. destruct C as (T & C') eqn:CE. rewrite T, (copy_length _ S1), nin_copy, nout_copy.
  repeat (match goal with |- bind ?x _ = bind ?x _ => destruct x; [|reflexivity]; cbn [bind] end).
  rewrite (write_while_ext _ _ (fun c o => copy_stream _ c o S1)).
  match goal with |- bind ?x _ = bind ?x _ => destruct x; [|reflexivity]; cbn [bind] end.
  rewrite (copied_sections p q C) by lia. reflexivity.
Qed.
Lemma copied_ins_length p q : copied p q -> forall n i, 0 <= i -> i + Z.of_nat n <= nin p -> ins_length n q i = ins_length n p i.
Proof.
  intros (T & _ & _ & I & _). induction n as [|n IH]; intros i B L; [reflexivity|]. cbn [ins_length].
  destruct (I i ltac:(lia)) as (m & A & C). rewrite A, C. cbn [bind]. rewrite IH by lia. reflexivity.
Qed.
Lemma copied_length p q : copied p q -> sizes_ok (ps_tx p) -> psbt_length q = psbt_length p.
Proof.
  intros C S1. unfold psbt_length. destruct C as (T & C') eqn:CE. rewrite T, (copy_length _ S1), nin_copy, nout_copy.
  replace (length (t_ins (tx_copy (ps_tx p)))) with (length (t_ins (ps_tx p))) by (symmetry; apply map_length).
  rewrite (copied_ins_length p q C) by (unfold nin, len; lia). reflexivity.
Qed.
Lemma copied_amount p q : copied p q -> forall n i acc, 0 <= i -> i + Z.of_nat n <= nin p -> input_amount n q i acc = input_amount n p i acc.
Proof.
  intros (T & _ & _ & I & _). induction n as [|n IH]; intros i acc B L; [reflexivity|]. cbn [input_amount].
  destruct (I i ltac:(lia)) as (m & A & C). rewrite A, C. cbn [bind]. change (to_amount (im_out (mcopy m))) with (to_amount (im_out m)).
  destruct (to_amount (im_out m) =? 0); [reflexivity|]. apply IH; lia.
Qed.
Lemma out_sum l acc : fold_left (fun a o => u64 (a + to_amount o)) (map ocopy l) acc = fold_left (fun a o => u64 (a + to_amount o)) l acc.
Proof. revert acc. induction l as [|o l IH]; intros acc; [reflexivity|]. cbn [map fold_left]. apply IH. Qed.
Lemma copied_fee p q : copied p q -> psbt_fee q = psbt_fee p.
Proof.
  intros C. unfold psbt_fee. destruct C as (T & C') eqn:CE. rewrite T.
  replace (length (t_ins (tx_copy (ps_tx p)))) with (length (t_ins (ps_tx p))) by (symmetry; apply map_length).
  rewrite (copied_amount p q C) by (unfold nin, len; lia). replace (output_amount (t_outs (tx_copy (ps_tx p)))) with (output_amount (t_outs (ps_tx p))); [reflexivity|].
  symmetry. apply out_sum.
Qed.
Lemma copied_mine p q derive i : copied p q -> 0 <= i < nout p -> psbt_isMine derive q i = psbt_isMine derive p i.
Proof. intros (_ & _ & _ & _ & O) B. destruct (O i B) as (m & A & C). unfold psbt_isMine. rewrite A, C. reflexivity. Qed.
Lemma array_all {A} (l : list A) n : n = len l -> array n (Some l) = l.
Proof. intros ->. unfold array, len. rewrite Nat2Z.id. apply firstn_all. Qed.
Lemma F2_length {A B} (R : A -> B -> Prop) l m : Forall2 R l m -> length l = length m.
Proof. induction 1; cbn [length]; congruence. Qed.
Lemma holds_nin t v : tx_holds t v -> len (t_ins t) = len (s_ins v) /\ len (t_outs t) = len (s_outs v).
Proof. intros (_ & _ & _ & _ & E & F). unfold len. rewrite (F2_length _ _ _ E), (F2_length _ _ _ F). auto. Qed.
Lemma mcopy_holds m u : input_holds m u -> input_holds (mcopy m) u.
Proof.
  intros (A & B & C & D & E). unfold input_holds, mcopy. cbn [im_out im_redeem im_witness im_ders im_sigs].
  split; [apply ocopy_holds, A|]. split; [apply fresh_holds, B|]. split; [apply fresh_holds, C|]. split; assumption.
Qed.
Lemma knows_arrays p v us : psbt_knows p v us -> exists ins outs, ps_ins p = Some ins /\ ps_outs p = Some outs /\ array (nin p) (ps_ins p) = ins /\ array (nout p) (ps_outs p) = outs /\
  length outs = length (s_outs v) /\ length us = length (s_ins v) /\ Forall2 input_holds ins us /\ nin p = len (s_ins v) /\ nout p = len (s_outs v).
Proof.
  intros (T & (outs & EO & LO) & ins & EI & LU & H). exists ins, outs. destruct (holds_nin _ _ T) as (N1 & N2). unfold nin, nout.
  split; [exact EI|]. split; [exact EO|]. rewrite EI, EO. split; [apply array_all|split; [apply array_all|]].
  - rewrite N1. unfold len. rewrite (F2_length _ _ _ H), LU. reflexivity.
  - rewrite N2. unfold len. rewrite LO. reflexivity.
  - repeat split; assumption.
Qed.
Lemma copy_knows p v us : psbt_knows p v us -> psbt_destroy p = Ok tt -> exists q, psbt_copy p = Ok q /\ psbt_knows q v us /\ psbt_destroy q = Ok tt /\ ps_status q = ps_status p.
Proof.
  intros K D. destruct (copy_copied p D) as (q & E & C). exists q. split; [exact E|]. destruct C as (T & S1 & DQ & _). split; [|split; [exact DQ|exact S1]].
  destruct (knows_arrays p v us K) as (ins & outs & EI & EO & AI & AO & LO & LU & H & _). rewrite psbt_copy_eq, D in E. injection E as <-. rewrite AI, AO.
  split; [apply copy_holds, (proj1 K)|]. cbn [ps_ins ps_outs]. split.
  - exists (map pcopy outs). split; [reflexivity|]. rewrite map_length. exact LO.
  - exists (map mcopy ins). split; [reflexivity|]. split; [exact LU|]. apply F2_map_l; [exact mcopy_holds|exact H].
Qed.
Lemma assign_knows d p v us : psbt_destroy d = Ok tt -> psbt_knows p v us -> psbt_destroy p = Ok tt -> s_ins v <> [] -> s_outs v <> [] ->
  exists q, psbt_assign d p = Ok q /\ psbt_knows q v us /\ psbt_destroy q = Ok tt /\ ps_status q = ps_status p.
Proof.
  intros DD K D NI NO. destruct (assign_copied d p DD D) as (q & E & C). exists q. split; [exact E|]. destruct C as (T & S1 & DQ & _). split; [|split; [exact DQ|exact S1]].
  destruct (knows_arrays p v us K) as (ins & outs & EI & EO & AI & AO & LO & LU & H & N1 & N2).
  assert (P1 : 0 < nin p) by (rewrite N1; destruct (s_ins v); [contradiction|rewrite len_cons; pose proof (len_nonneg _ l); lia]).
  assert (P2 : 0 < nout p) by (rewrite N2; destruct (s_outs v); [contradiction|rewrite len_cons; pose proof (len_nonneg _ l); lia]).
  destruct (destroy_parts p D) as (R1 & R2). unfold psbt_assign in E. change (psbt_release d) with (psbt_destroy d) in E. rewrite DD in E. cbn [bind] in E.
  rewrite (copy_ptr_eq _ mcopy im_ders _ _ (len_nonneg _ _) inmeta_copy_eq) in E. fold (nin p) in E. rewrite R1 in E. cbn [bind] in E.
  rewrite (copy_ptr_eq _ pcopy om_ders _ _ (len_nonneg _ _) outmeta_copy_eq) in E. fold (nout p) in E. rewrite R2 in E. cbn [bind] in E. injection E as <-.
  rewrite AI, AO. replace (0 <? nin p) with true by dlia. replace (0 <? nout p) with true by dlia.
  split; [apply copy_holds, (proj1 K)|]. cbn [ps_ins ps_outs]. split.
  - exists (map pcopy outs). split; [reflexivity|]. rewrite map_length. exact LO.
  - exists (map mcopy ins). split; [reflexivity|]. split; [exact LU|]. apply F2_map_l; [exact mcopy_holds|exact H].
Qed.
(** All that a user sees of a copy. *)
Lemma copied_seen p q : copied p q -> psbt_destroy q = Ok tt /\ same_psbt q p /\ psbt_fee q = psbt_fee p /\
  (forall derive i, 0 <= i < len (t_outs (ps_tx p)) -> psbt_isMine derive q i = psbt_isMine derive p i) /\
  (sizes_ok (ps_tx p) -> psbt_length q = psbt_length p /\ forall cap off, psbt_to_stream q cap off = psbt_to_stream p cap off).
Proof.
  intros C. split; [apply C|]. split; [exact (copied_same p q C)|]. split; [exact (copied_fee p q C)|].
  split; [intros derive i; exact (copied_mine p q derive i C)|]. intros S1. split; [exact (copied_length p q C S1)|]. intros cap off. exact (copied_stream p q cap off C S1).
Qed.
Lemma psbt_copy_seen p : psbt_destroy p = Ok tt -> exists q, psbt_copy p = Ok q /\ psbt_destroy q = Ok tt /\ same_psbt q p /\ psbt_fee q = psbt_fee p /\
  (forall derive i, 0 <= i < len (t_outs (ps_tx p)) -> psbt_isMine derive q i = psbt_isMine derive p i) /\
  (sizes_ok (ps_tx p) -> psbt_length q = psbt_length p /\ forall cap off, psbt_to_stream q cap off = psbt_to_stream p cap off).
Proof. intros D. destruct (copy_copied p D) as (q & E & C). exists q. split; [exact E|]. exact (copied_seen p q C). Qed.
Lemma psbt_assign_seen d p : psbt_destroy d = Ok tt -> psbt_destroy p = Ok tt -> exists q, psbt_assign d p = Ok q /\ psbt_destroy q = Ok tt /\ same_psbt q p /\ psbt_fee q = psbt_fee p /\
  (forall derive i, 0 <= i < len (t_outs (ps_tx p)) -> psbt_isMine derive q i = psbt_isMine derive p i) /\
  (sizes_ok (ps_tx p) -> psbt_length q = psbt_length p /\ forall cap off, psbt_to_stream q cap off = psbt_to_stream p cap off).
Proof. intros DD D. destruct (assign_copied d p DD D) as (q & E & C). exists q. split; [exact E|]. exact (copied_seen p q C). Qed.
(** What must not be destroyed must not be copied. *)
Lemma psbt_copy_ub d p : psbt_destroy p = UB -> psbt_copy p = UB /\ psbt_assign d p = UB.
Proof.
  intros D. split; [rewrite psbt_copy_eq, D; reflexivity|]. unfold psbt_assign. destruct (psbt_release d); [|reflexivity]. cbn [bind].
  rewrite (copy_ptr_eq _ mcopy im_ders _ _ (len_nonneg _ _) inmeta_copy_eq). rewrite (copy_ptr_eq _ pcopy om_ders _ _ (len_nonneg _ _) outmeta_copy_eq). fold (nin p) (nout p).
  unfold psbt_destroy, psbt_release in D. fold (nin p) (nout p) in D. destruct (release im_ders (nin p) (ps_ins p)); [|reflexivity]. cbn [bind] in *. rewrite D. reflexivity.
Qed.
(** A copy made in the middle does not know where it is. *)
Lemma psbt_halfway dsha garbage p q c st : psbt_copy p = Ok q -> ps_status p = INCOMPLETE -> c <> 112 ->
  exists q', psbt_parse dsha garbage q (c :: st) = Ok (q', 1, st) /\ ps_status q' = FAILED.
Proof.
  intros E S1 N. rewrite psbt_copy_eq in E. destruct (psbt_destroy p); [|discriminate E]. injection E as <-.
  unfold psbt_parse. cbn [ps_status]. rewrite S1. unfold psbt_body. cbn [ps_parsed magic_loop]. change (0 <? 5) with true. cbv iota.
  change (aget psbt_magic 0) with (Ok 112). cbn [bind]. replace (c =? 112) with false by dlia. cbn [bind].
  eexists. split; reflexivity.
Qed.

Lemma psbt_assign_halfway dsha garbage d p q c st : psbt_assign d p = Ok q -> ps_parsed d = 0 -> ps_status p = INCOMPLETE -> c <> 112 ->
  exists q', psbt_parse dsha garbage q (c :: st) = Ok (q', 1, st) /\ ps_status q' = FAILED.
Proof.
  intros E PD S1 N. unfold psbt_assign in E. destruct (psbt_release d); [|discriminate E]. cbn [bind] in E. destruct (copy_ptr inmeta_copy _ _) as [ins|]; [|discriminate E]. cbn [bind] in E.
  destruct (copy_ptr outmeta_copy _ _) as [outs|]; [|discriminate E]. cbn [bind] in E. injection E as <-. rewrite PD.
  unfold psbt_parse. cbn [ps_status]. rewrite S1. unfold psbt_body. cbn [ps_parsed magic_loop]. change (0 <? 5) with true. cbv iota.
  change (aget psbt_magic 0) with (Ok 112). cbn [bind]. replace (c =? 112) with false by dlia. cbn [bind].
  eexists. split; reflexivity.
Qed.

(** * Electrum *)
Lemma copy_id {A} (l : list A) : copy_all (fun m => Ok m) l = Ok l.
Proof. induction l as [|x l IH]; [reflexivity|]. cbn [copy_all bind]. rewrite IH. reflexivity. Qed.
Lemma copy_ptr_id {A} (l : list A) n : n = len l -> copy_ptr (fun m => Ok m) n (Some l) = Ok l.
Proof.
  intros ->. unfold copy_ptr. destruct (len l =? 0) eqn:E.
  - apply Z.eqb_eq in E. destruct l; [reflexivity|]. rewrite len_cons in E. pose proof (len_nonneg _ l). lia.
  - replace (len l <? len l) with false by (symmetry; apply Z.ltb_irrefl). unfold len. rewrite Nat2Z.id, firstn_all. apply copy_id.
Qed.
Lemma el_copied e v xs : electrum_holds e v xs -> forall sg, exists ms, copy_ptr (fun m => Ok m) (len (t_ins (el_tx e))) (el_metas e) = Ok ms /\
  let e' := mkEl (tx_copy (el_tx e)) sg (Some ms) (el_status e) (el_parsed e) in
  electrum_holds e' v xs /\ (amounts_hold e xs -> amounts_hold e' xs) /\ el_fee e' = el_fee e /\ el_length e' = el_length e /\ (forall cap off, el_to_stream e' cap off = el_to_stream e cap off).
Proof.
  intros (T & L & ms & EM & F) sg. exists ms. rewrite EM. destruct (holds_nin _ _ T) as (N & _).
  split; [apply copy_ptr_id; rewrite N; unfold len; rewrite (F2_length _ _ _ F), L; reflexivity|]. cbv zeta. split; [|split; [|split; [|split]]].
  - split; [apply copy_holds, T|]. split; [exact L|]. exists ms. split; [reflexivity|exact F].
  - intros (ms' & EM' & M). exists ms'. cbn [el_metas]. rewrite <- EM. split; [exact EM'|exact M].
  - unfold el_fee. cbn [el_metas el_tx]. rewrite EM. cbn [bind]. unfold fee_outputs. change (t_outs (tx_copy (el_tx e))) with (map ocopy (t_outs (el_tx e))). rewrite out_sum. reflexivity.
  - apply copy_length, (holds_sizes _ _ T).
  - intros cap off. apply copy_stream, (holds_sizes _ _ T).
Qed.
Lemma electrum_copy e v xs : electrum_holds e v xs -> exists e', el_copy e = Ok e' /\ el_status e' = el_status e /\
  electrum_holds e' v xs /\ (amounts_hold e xs -> amounts_hold e' xs) /\ el_fee e' = el_fee e /\ el_length e' = el_length e /\ (forall cap off, el_to_stream e' cap off = el_to_stream e cap off).
Proof.
  intros H. destruct (el_copied e v xs H false) as (ms & E & R). unfold el_copy. rewrite E. cbn [bind]. eexists. split; [reflexivity|]. split; [reflexivity|]. exact R.
Qed.
Lemma electrum_assign d e v xs : electrum_holds e v xs -> exists e', el_assign d e = Ok e' /\ el_status e' = el_status e /\
  electrum_holds e' v xs /\ (amounts_hold e xs -> amounts_hold e' xs) /\ el_fee e' = el_fee e /\ el_length e' = el_length e /\ (forall cap off, el_to_stream e' cap off = el_to_stream e cap off).
Proof.
  intros H. destruct (el_copied e v xs H (el_segwit d)) as (ms & E & R). unfold el_assign. rewrite E. cbn [bind]. eexists. split; [reflexivity|]. split; [reflexivity|]. exact R.
Qed.
Lemma electrum_null d e : t_ins (el_tx e) <> [] -> el_metas e = None -> el_copy e = UB /\ el_assign d e = UB.
Proof.
  intros N M. unfold el_copy, el_assign. rewrite M. unfold copy_ptr. destruct (t_ins (el_tx e)); [contradiction|].
  replace (len (t :: l) =? 0) with false by (rewrite len_cons; pose proof (len_nonneg _ l); dlia). split; reflexivity.
Qed.

(** A copy made while the data of the inputs are being read takes the rest for another transaction. *)
Lemma electrum_halfway uncompress pt_valid garbage junk e e' st t n r : el_copy e = Ok e' -> el_status e = INCOMPLETE -> t_status (el_tx e) = DONE -> 6 <= el_parsed e -> st <> [] ->
  tx_parse tx_new st = Ok (t, n, r) -> t_status t = INCOMPLETE ->
  exists e2, el_parse uncompress pt_valid garbage junk e' st = Ok (e2, n, r) /\ el_status e2 = INCOMPLETE /\ el_tx e2 = t.
Proof.
  intros E S1 TD P NE TP TI. unfold el_copy in E. destruct (copy_ptr (fun m => Ok m) (len (t_ins (el_tx e))) (el_metas e)) as [ms|]; [|discriminate E].
  injection E as <-. unfold el_parse. cbn [el_status]. rewrite S1. unfold el_body. cbn [el_parsed el_segwit el_tx el_metas].
  assert (PL : prefix_loop (el_parsed e) st = (el_parsed e, st, false)).
  { destruct st as [|c st]; [reflexivity|]. cbn [prefix_loop]. replace (el_parsed e <? 6) with false by dlia. reflexivity. }
  rewrite PL. change (t_status (tx_copy (el_tx e))) with (t_status (el_tx e)). rewrite TD.
  replace (negb false && match st with [] => false | _ :: _ => true end && negb (pstatus_eqb DONE FAILED)) with true by (destruct st; [contradiction|reflexivity]).
  rewrite copy_parse by exact TD. replace (tx_parse (el_tx e) st) with (tx_parse tx_new st) by (unfold tx_parse; rewrite TD; reflexivity).
  rewrite TP. cbn [bind]. rewrite TI. unfold el_after. rewrite TI. cbn [pstatus_eqb andb].
  replace (el_parsed e + n - el_parsed e) with n by lia. eexists. split; [reflexivity|]. split; reflexivity.
Qed.
Lemma electrum_assign_halfway uncompress pt_valid garbage junk d e e' st t n r : el_assign d e = Ok e' -> el_segwit d = false -> el_status e = INCOMPLETE -> t_status (el_tx e) = DONE -> 6 <= el_parsed e -> st <> [] ->
  tx_parse tx_new st = Ok (t, n, r) -> t_status t = INCOMPLETE ->
  exists e2, el_parse uncompress pt_valid garbage junk e' st = Ok (e2, n, r) /\ el_status e2 = INCOMPLETE /\ el_tx e2 = t.
Proof.
  intros E SG S1 TD P NE TP TI. unfold el_assign in E. destruct (copy_ptr (fun m => Ok m) (len (t_ins (el_tx e))) (el_metas e)) as [ms|]; [|discriminate E].
  injection E as <-. rewrite SG. unfold el_parse. cbn [el_status]. rewrite S1. unfold el_body. cbn [el_parsed el_segwit el_tx el_metas].
  assert (PL : prefix_loop (el_parsed e) st = (el_parsed e, st, false)).
  { destruct st as [|c st]; [reflexivity|]. cbn [prefix_loop]. replace (el_parsed e <? 6) with false by dlia. reflexivity. }
  rewrite PL. change (t_status (tx_copy (el_tx e))) with (t_status (el_tx e)). rewrite TD.
  replace (negb false && match st with [] => false | _ :: _ => true end && negb (pstatus_eqb DONE FAILED)) with true by (destruct st; [contradiction|reflexivity]).
  rewrite copy_parse by exact TD. replace (tx_parse (el_tx e) st) with (tx_parse tx_new st) by (unfold tx_parse; rewrite TD; reflexivity).
  rewrite TP. cbn [bind]. rewrite TI. unfold el_after. rewrite TI. cbn [pstatus_eqb andb].
  replace (el_parsed e + n - el_parsed e) with n by lia. eexists. split; [reflexivity|]. split; reflexivity.
Qed.
