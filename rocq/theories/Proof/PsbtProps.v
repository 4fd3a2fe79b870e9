(** Partially signed transactions: fee, previous transactions, round trip, ownership, memory. *)
From Coq Require Import Lia.
From Verif Require Import Base.Bytes Base.BytesFacts Spec.Codecs Spec.Wire Spec.Objects Spec.Signature Spec.Point Spec.PSBT
  Model.Conversion Model.Stream Model.Script Model.Tx Model.Signature Model.Point Model.PSBT
  Proof.IntVarint Proof.StreamFacts Proof.ScriptFacts Proof.TxIo Proof.TxParse Proof.TxHash Proof.TxProps Proof.PsbtFacts Proof.PsbtParse Proof.PsbtWrite Proof.PsbtEntries Proof.PsbtInv.
Open Scope Z_scope.

(** ** Bytes *)
Lemma wire_bytes_ok : forall bs, bytes_ok bs -> len bs < 2^31 -> bytes_ok (wire_bytes bs).
Proof. intros bs B L. pose proof (len_nonneg _ bs). apply bytes_ok_app. split; [apply compact_size_ok; lia|auto]. Qed.
Lemma flat_ok : forall {A} (f : A -> list Z) l, Forall (fun x => bytes_ok (f x)) l -> bytes_ok (flat_map f l).
Proof. induction 1 as [|x l H F IH]; [constructor|]. cbn [flat_map]. apply bytes_ok_app. auto. Qed.
Lemma wire_out_ok : forall o, out_ok o -> bytes_ok (wire_out o).
Proof. intros o (V & B & L). apply bytes_ok_app. split; [apply le_bytes_ok|apply wire_bytes_ok; auto]. Qed.
Lemma wire_in_ok : forall i, in_ok i -> bytes_ok (wire_in i).
Proof.
  intros i (L & B & V & S & BS & LS & W). unfold wire_in. apply bytes_ok_app. split; [auto|]. apply bytes_ok_app. split; [apply le_bytes_ok|].
  apply bytes_ok_app. split; [apply wire_bytes_ok; auto|apply le_bytes_ok].
Qed.
Lemma flat_len_in : forall els e, In e els -> len e <= len (flat_map wire_bytes els).
Proof.
  induction els as [|a t IH]; intros e [].
  - subst. cbn [flat_map]. unfold wire_bytes. rewrite !len_app. pose proof (len_nonneg _ (compact_size (len e))). pose proof (len_nonneg _ (flat_map (fun bs => compact_size (len bs) ++ bs) t)). fold wire_bytes in *. lia.
  - cbn [flat_map]. rewrite len_app. specialize (IH e H). pose proof (len_nonneg _ (wire_bytes a)). lia.
Qed.
Lemma wire_tx_ok : forall v, carried v -> bytes_ok (wire_tx v).
Proof.
  intros v ((V & L & FI & FO) & W & NI & NO & _). pose proof (len_nonneg _ (s_outs v)).
  assert (CI : bytes_ok (wire_list wire_in (s_ins v))).
  { apply bytes_ok_app. split; [apply compact_size_ok; lia|]. apply flat_ok. eapply Forall_impl; [|exact FI]. intros; apply wire_in_ok; auto. }
  assert (CO : bytes_ok (wire_list wire_out (s_outs v))).
  { apply bytes_ok_app. split; [apply compact_size_ok; lia|]. apply flat_ok. eapply Forall_impl; [|exact FO]. intros; apply wire_out_ok; auto. }
  assert (CW : bytes_ok (flat_map (fun i => wire_witness (si_wit i)) (s_ins v))).
  { apply flat_ok. eapply Forall_impl; [|exact W]. intros i (N & B & LW). pose proof (len_nonneg _ (si_wit i)). apply bytes_ok_app. split; [apply compact_size_ok; lia|].
    apply flat_ok. rewrite Forall_forall in *. intros e I. apply wire_bytes_ok; [auto|]. pose proof (flat_len_in _ _ I). lia. }
  assert (C2 : bytes_ok [0; 1]) by (repeat constructor; unfold byte_ok; lia).
  unfold wire_tx, wire_segwit, wire_legacy. destruct (has_witness v); repeat first [assumption | apply le_bytes_ok | apply bytes_ok_app; split].
Qed.

Lemma tx_ins_nth : forall v j i, nth_error (s_ins v) j = Some i ->
  exists ti, nth_error (t_ins (parsed_tx v)) j = Some ti /\ ti_hash ti = si_prev i /\ ti_index ti = si_vout i.
Proof.
  intros v j i H. unfold parsed_tx. cbn [t_ins]. destruct (has_witness v); eexists; (split; [apply map_nth_error; exact H|split; reflexivity]).
Qed.

Section Props.
Variable dsha : list Z -> list Z.
Variable garbage : list Z.
Notation parse := (psbt_parse dsha garbage).
Notation in_entry := (in_entry dsha garbage).
Notation out_entry := (out_entry garbage).
Notation ins_run := (ins_run dsha garbage).
Notation outs_run := (outs_run garbage).

(** ** A whole PSBT around a transaction *)
Lemma whole_run : forall p v global mi mo rest, ready p -> psbt_tx v -> fits_maps v global mi mo ->
  let w := wire_psbt (wire_tx v) global (mi ++ mo) in
  match (let! r := ins_run (repeat im_new (length (s_ins v))) (t_ins (parsed_tx v)) mi in
         if snd r then let! q := outs_run (repeat om_new (length (s_outs v))) mo in Ok ((Some (fst r), Some (fst q)), snd q)
         else Ok ((Some (fst r), snd (fresh_metas (parsed_tx v))), false)) with
  | UB => parse p (w ++ rest) = UB
  | Ok (m, false) => exists p' n' st', parse p (w ++ rest) = Ok (p', n', st') /\ ps_status p' = FAILED
  | Ok (m, true) => exists p', parse p (w ++ rest) = Ok (p', len w, rest) /\ ps_status p' = DONE /\ ps_tx p' = parsed_tx v /\ ps_metas p' = m /\ settled2 p'
  end.
Proof.
  intros p v global mi mo rest RP (C & LE) (LI & LO & PG & PM) w. pose proof C as C0. destruct C as (TO & WO & NI & NO & LW & PL).
  pose proof (tx_parse_wire tx_new v [] eq_refl TO WO NI NO) as T. rewrite app_nil_r in T.
  assert (TI : length (t_ins (parsed_tx v)) = length (s_ins v)) by (unfold parsed_tx; cbn [t_ins]; destruct (has_witness v); apply map_length).
  assert (TOu : length (t_outs (parsed_tx v)) = length (s_outs v)) by (unfold parsed_tx; cbn [t_outs]; apply map_length).
  assert (SO : sections_of (parsed_tx v) = 1 + len (s_ins v) + len (s_outs v)) by (unfold sections_of, len; lia).
  pose proof (psbt_whole dsha garbage p (wire_tx v) (parsed_tx v) _ _ global (mi ++ mo) rest RP
    (wire_tx_ok v C0) LW PL T eq_refl PG PM ltac:(rewrite len_app, SO; lia) ltac:(lia)) as H.
  unfold whole in H. rewrite run_all in H by (auto; unfold len in *; lia). rewrite TI, TOu in H. exact H.
Qed.

Lemma whole_done : forall p v global mi mo rest p' n r, ready p -> psbt_tx v -> fits_maps v global mi mo ->
  parse p (wire_psbt (wire_tx v) global (mi ++ mo) ++ rest) = Ok (p', n, r) -> ps_status p' = DONE ->
  ps_tx p' = parsed_tx v /\ exists ins outs, ps_ins p' = Some ins /\ ps_outs p' = Some outs /\
    ins_run (repeat im_new (length (s_ins v))) (t_ins (parsed_tx v)) mi = Ok (ins, true) /\
    outs_run (repeat om_new (length (s_outs v))) mo = Ok (outs, true).
Proof.
  intros p v global mi mo rest p' n r RP V F E D. pose proof (whole_run p v global mi mo rest RP V F) as H. cbn zeta in H.
  destruct (ins_run _ _ mi) as [[ins b]|] eqn:EI.
  2:{ rewrite E in H. discriminate. }
  rewrite bind_ok in H. cbn [fst snd] in H. destruct b.
  2:{ destruct H as (a & b & c & K & S). rewrite E in K. injection K as <- <- <-. congruence. }
  destruct (outs_run _ mo) as [[outs b]|] eqn:EO.
  2:{ rewrite E in H. discriminate. }
  rewrite bind_ok in H. cbn [fst snd] in H. destruct b.
  2:{ destruct H as (a & b & c & K & S). rewrite E in K. injection K as <- <- <-. congruence. }
  destruct H as (q & K & S & T & M & _). rewrite E in K. injection K as <- _ _. split; [auto|]. unfold ps_metas in M. injection M as M1 M2. exists ins, outs. auto.
Qed.
Lemma whole_accepts : forall p v global mi mo rest ins outs, ready p -> psbt_tx v -> fits_maps v global mi mo ->
  ins_run (repeat im_new (length (s_ins v))) (t_ins (parsed_tx v)) mi = Ok (ins, true) ->
  outs_run (repeat om_new (length (s_outs v))) mo = Ok (outs, true) ->
  let w := wire_psbt (wire_tx v) global (mi ++ mo) in
  exists p', parse p (w ++ rest) = Ok (p', len w, rest) /\ ps_status p' = DONE /\ ps_tx p' = parsed_tx v /\ ps_ins p' = Some ins /\ ps_outs p' = Some outs.
Proof.
  intros p v global mi mo rest ins outs RP V F EI EO w. pose proof (whole_run p v global mi mo rest RP V F) as H. cbn zeta in H.
  rewrite EI, bind_ok in H. cbn [fst snd] in H. rewrite EO, bind_ok in H. cbn [fst snd] in H. destruct H as (q & K & S & T & M & _).
  unfold ps_metas in M. injection M as M1 M2. exists q. auto.
Qed.

(** ** Entry by entry *)
Lemma ins_run_nth : forall xs is maps ys, length xs = length is -> length xs = length maps -> ins_run xs is maps = Ok (ys, true) ->
  length ys = length xs /\ forall j x i m, nth_error xs j = Some x -> nth_error is j = Some i -> nth_error maps j = Some m ->
    exists y, nth_error ys j = Some y /\ pairs_on (fun x => in_entry x i) x m = Ok (y, true).
Proof.
  induction xs as [|x xs IH]; intros [|i is] [|m maps] ys L1 L2 E; try discriminate.
  - injection E as <-. split; [reflexivity|]. intros [|j] ? ? ? K; discriminate.
  - cbn [PsbtEntries.ins_run] in E. destruct (pairs_on _ x m) as [[y b]|] eqn:EP; [|discriminate]. rewrite bind_ok in E. cbn [fst snd] in E. destruct b; [|discriminate].
    destruct (ins_run xs is maps) as [[zs b]|] eqn:ER; [|discriminate]. rewrite bind_ok in E. cbn [fst snd] in E. injection E as <- ->.
    injection L1 as L1. injection L2 as L2. destruct (IH is maps zs L1 L2 ER) as [LZ H]. split; [cbn [length]; lia|].
    intros [|j] x' i' m' K1 K2 K3; cbn [nth_error] in *; [|eauto]. injection K1 as <-. injection K2 as <-. injection K3 as <-. eauto.
Qed.
Lemma nth_repeat_some : forall {A} (a : A) n j, (j < n)%nat -> nth_error (repeat a n) j = Some a.
Proof. induction n as [|n IH]; intros [|j] H; try lia; [reflexivity|]. cbn [repeat nth_error]. apply IH. lia. Qed.

(** One input: its map gives its metadata. *)
Lemma input_run : forall p v global mi mo rest p' n r, ready p -> psbt_tx v -> fits_maps v global mi mo ->
  parse p (wire_psbt (wire_tx v) global (mi ++ mo) ++ rest) = Ok (p', n, r) -> ps_status p' = DONE ->
  exists ins, ps_ins p' = Some ins /\ length ins = length (s_ins v) /\
  forall j i m, nth_error (s_ins v) j = Some i -> nth_error mi j = Some m ->
    exists ti x, ti_hash ti = si_prev i /\ ti_index ti = si_vout i /\ nth_error ins j = Some x /\ pairs_on (fun x => in_entry x ti) im_new m = Ok (x, true).
Proof.
  intros p v global mi mo rest p' n r RP V F E D. pose proof (whole_done _ _ _ _ _ _ _ _ _ RP V F E D) as (T & ins & outs & EI & EO & RI & RO).
  destruct F as (LI & LO & _). exists ins. split; [auto|].
  assert (TI : length (t_ins (parsed_tx v)) = length (s_ins v)) by (unfold parsed_tx; cbn [t_ins]; destruct (has_witness v); apply map_length).
  destruct (ins_run_nth (repeat im_new (length (s_ins v))) (t_ins (parsed_tx v)) mi ins ltac:(rewrite repeat_length; auto) ltac:(rewrite repeat_length; unfold len in *; lia) RI) as [L H].
  rewrite repeat_length in L. split; [auto|]. intros j i m NI NM. destruct (tx_ins_nth v j i NI) as (ti & NT & TH & TX).
  assert (J : (j < length (s_ins v))%nat) by (apply nth_error_Some; rewrite NI; discriminate).
  destruct (H j im_new ti m (nth_repeat_some _ _ _ J) NT NM) as (x & NX & PX). exists ti, x. auto.
Qed.

Lemma pairs_app : forall {A} (f : A -> list Z * list Z -> outcome (A * Z)) l1 l2 x y, pairs_on f x (l1 ++ l2) = Ok (y, true) ->
  exists z, pairs_on f x l1 = Ok (z, true) /\ pairs_on f z l2 = Ok (y, true).
Proof.
  induction l1 as [|e l1 IH]; intros l2 x y H; [exists x; split; [reflexivity|auto]|]. cbn [app pairs_on] in *.
  destruct (f x e) as [[z res]|]; [|discriminate]. rewrite bind_ok in *. cbn [fst snd] in *. destruct (res <? 0); [discriminate|]. auto.
Qed.
Lemma pairs_cons : forall {A} (f : A -> list Z * list Z -> outcome (A * Z)) e l x y, pairs_on f x (e :: l) = Ok (y, true) ->
  exists z res, f x e = Ok (z, res) /\ 0 <= res /\ pairs_on f z l = Ok (y, true).
Proof.
  intros A f e l x y H. cbn [pairs_on] in H. destruct (f x e) as [[z res]|]; [|discriminate]. rewrite bind_ok in H. cbn [fst snd] in H.
  destruct (Z.ltb_spec res 0); [discriminate|]. eauto.
Qed.

(** ** Amounts *)
Lemma other_keeps : forall x ti e y res, other_entry e -> pair_ok e -> in_entry x ti e = Ok (y, res) -> im_out y = im_out x.
Proof.
  intros x ti [k v] y res (c & k' & E & C & L) (_ & B & _ & _ & _) H. cbn [fst snd] in *. subst k. unfold PsbtEntries.in_entry in H. cbn [fst snd] in H.
  rewrite first_byte in H by (auto; rewrite len_cons; lia). rewrite bind_ok in H. cbv beta in H. unfold add_input in H. cbv zeta in H.
  destruct (Z.eqb_spec c 0); [lia|]. destruct (Z.eqb_spec c 1); [lia|].
  destruct (c =? 2).
  { match type of H with (if ?b then _ else _) = _ => destruct b end; [injection H as <- _; reflexivity|].
    destruct (parse_point _ _) as [pub|]; [|discriminate]. rewrite bind_ok in H. cbv beta in H.
    match type of H with (if ?b then _ else _) = _ => destruct b end; [injection H as <- _; reflexivity|].
    destruct (sig_parse _ _) as [[[sg a] b]|]; [|discriminate]. rewrite bind_ok in H. cbn [fst] in H.
    match type of H with (if ?b then _ else _) = _ => destruct b end; [injection H as <- _; reflexivity|].
    destruct (grow _ _); [|discriminate]. rewrite bind_ok in H. injection H as <- _. reflexivity. }
  destruct (c =? 4).
  { match type of H with (if ?b then _ else _) = _ => destruct b end; [injection H as <- _; reflexivity|].
    destruct (script_parse _ _) as [[[sg a] b]|]; [|discriminate]. rewrite bind_ok in H. injection H as <- _. reflexivity. }
  destruct (c =? 5).
  { match type of H with (if ?b then _ else _) = _ => destruct b end; [injection H as <- _; reflexivity|].
    destruct (script_parse _ _) as [[[sg a] b]|]; [|discriminate]. rewrite bind_ok in H. injection H as <- _. reflexivity. }
  destruct (c =? 6); [|injection H as <- _; reflexivity].
  destruct (add_deriv _ _ _ _ _ _) as [[a b]|]; [|discriminate]. rewrite bind_ok in H. injection H as <- _. reflexivity.
Qed.
Lemma others_keep : forall ti l x y, Forall other_entry l -> Forall pair_ok l -> pairs_on (fun x => in_entry x ti) x l = Ok (y, true) -> im_out y = im_out x.
Proof.
  induction l as [|e l IH]; intros x y O P H; [injection H as <-; reflexivity|]. apply Forall_cons_iff in O as [O1 O2]. apply Forall_cons_iff in P as [P1 P2].
  apply pairs_cons in H as (z & res & E & R & H). rewrite (IH z y O2 P2 H). eapply other_keeps; eauto.
Qed.
Lemma nth_len : forall {A} (l : list A) k x, nth_error l (Z.to_nat k) = Some x -> 0 <= k -> 0 <= k < len l.
Proof. intros A l k x H K. assert (Z.to_nat k < length l)%nat by (apply nth_error_Some; rewrite H; discriminate). unfold len. lia. Qed.
Lemma gives_entry : forall i ti x e a y res, gives_amount dsha i e a -> ti_hash ti = si_prev i -> ti_index ti = si_vout i -> 0 <= si_vout i ->
  im_out x = txout_new -> in_entry x ti e = Ok (y, res) -> to_amount (im_out y) = a /\ 0 <= a.
Proof.
  intros i ti x e a y res G TH TX NN NW H. destruct G as [(o & (-> & O & PL & L) & V)|(w & o & (-> & C) & (S1 & S2) & N & V)].
  - rewrite entry_utxo in H by (solve [rewrite NW; reflexivity | auto | apply wire_out_ok; auto]). injection H as <- _. cbn [im_out to_amount parsed_out]. destruct O as (O & _). lia.
  - pose proof C as C0. destruct C as (TO & WO & NI & NO & LW & PL).
    destruct (entry_prev_wire dsha garbage x ti w TO WO NI NO (wire_tx_ok w C0) LW PL) as (o' & N' & K); [congruence|lia|].
    rewrite K in H. injection H as <- _. cbn [im_out to_amount]. rewrite TX in N'. rewrite N in N'. injection N' as <-.
    destruct TO as (_ & _ & _ & FO). rewrite Forall_forall in FO. destruct (FO o (nth_error_In _ _ N)) as (K1 & _). lia.
Qed.
Definition amount0 (a : option Z) : Z := match a with Some a => a | None => 0 end.
Lemma tells_run : forall i ti m a y, input_tells dsha i m a -> Forall pair_ok m -> ti_hash ti = si_prev i -> ti_index ti = si_vout i -> 0 <= si_vout i ->
  pairs_on (fun x => in_entry x ti) im_new m = Ok (y, true) -> to_amount (im_out y) = amount0 a /\ 0 <= amount0 a.
Proof.
  intros i ti m [a|] y T P TH TX NN H; cbn [amount0].
  - destruct T as (l1 & e & l2 & -> & O & G). apply Forall_app in O as [O1 O2]. apply Forall_app in P as [P1 P2]. apply Forall_cons_iff in P2 as [_ P2].
    apply pairs_app in H as (z & H1 & H2). apply pairs_cons in H2 as (z' & res & E & R & H2).
    rewrite (others_keep ti l2 z' y O2 P2 H2). eapply gives_entry; eauto. exact (others_keep ti l1 im_new z O1 P1 H1).
  - rewrite (others_keep ti m im_new y T P H). split; [reflexivity|lia].
Qed.
Lemma tell_lengths : forall is ms l, inputs_tell dsha is ms l -> length is = length ms /\ length is = length l.
Proof. induction 1 as [|i is m ms a l T F [IH1 IH2]]; cbn [length]; auto. Qed.
Lemma amounts_run : forall is ms l, inputs_tell dsha is ms l -> Forall (Forall pair_ok) ms -> Forall in_ok is -> forall ins, length ins = length is ->
  (forall j i m, nth_error is j = Some i -> nth_error ms j = Some m ->
    exists ti x, ti_hash ti = si_prev i /\ ti_index ti = si_vout i /\ nth_error ins j = Some x /\ pairs_on (fun x => in_entry x ti) im_new m = Ok (x, true)) ->
  map (fun m => to_amount (im_out m)) ins = map amount0 l /\ Forall (fun a => 0 <= amount0 a) l.
Proof.
  induction 1 as [|i is m ms a l T F IH]; intros P I ins L H.
  - destruct ins; [|discriminate]. split; [reflexivity|constructor].
  - destruct ins as [|x ins]; [discriminate|]. injection L as L. apply Forall_cons_iff in P as [P1 P2]. apply Forall_cons_iff in I as [I1 I2].
    destruct (H O i m eq_refl eq_refl) as (ti & x' & TH & TX & NX & PX). injection NX as <-.
    destruct (tells_run i ti m a x T P1 TH TX) as [A1 A2]; [destruct I1 as (_ & _ & V & _); lia|auto|].
    destruct (IH P2 I2 ins L) as [B1 B2]; [intros j i' m' K1 K2; exact (H (S j) i' m' K1 K2)|].
    cbn [map]. rewrite A1, B1. split; [reflexivity|constructor; auto].
Qed.
Lemma some_unknown : forall l, Forall (fun a => a <> Some 0) l -> existsb (fun a => a =? 0) (map amount0 l) = negb (all_known l).
Proof.
  induction 1 as [|a l H F IH]; [reflexivity|]. cbn [map existsb all_known forallb] in *. unfold all_known in IH. rewrite IH.
  destruct a as [a|]; cbn [amount0]; [|reflexivity]. destruct (Z.eqb_spec a 0); [congruence|reflexivity].
Qed.
Lemma known_sum : forall l, zsum (map amount0 l) = total (known_amounts l).
Proof.
  induction l as [|[a|] l IH]; [reflexivity| |]; cbn [map known_amounts flat_map amount0]; fold (known_amounts l); rewrite zsum_cons, IH; [|cbn [app]; lia].
  change (total ([a] ++ known_amounts l)) with (a + total (known_amounts l)). lia.
Qed.
Lemma existsb_map' : forall {A B} (f : A -> B) (g : B -> bool) l, existsb (fun x => g (f x)) l = existsb g (map f l).
Proof. induction l as [|x l IH]; [reflexivity|]. cbn [existsb map]. rewrite IH. reflexivity. Qed.
Lemma Forall_map' : forall {A B} (f : A -> B) (P : B -> Prop) l, Forall P (map f l) -> Forall (fun x => P (f x)) l.
Proof. induction l as [|x l IH]; intros H; [constructor|]. cbn [map] in H. apply Forall_cons_iff in H as [H1 H2]. constructor; auto. Qed.
Lemma map_Forall' : forall {A B} (f : A -> B) (P : B -> Prop) l, Forall (fun x => P (f x)) l -> Forall P (map f l).
Proof. induction 1; constructor; auto. Qed.
Lemma out_amounts : forall v, map to_amount (t_outs (parsed_tx v)) = map so_value (s_outs v).
Proof. intros v. unfold parsed_tx. cbn [t_outs]. rewrite map_map. apply map_ext. reflexivity. Qed.

Lemma parsed_amounts : forall v global mi mo rest p n r amounts, psbt_tx v -> fits_maps v global mi mo -> inputs_tell dsha (s_ins v) mi amounts ->
  parse psbt_new (wire_psbt (wire_tx v) global (mi ++ mo) ++ rest) = Ok (p, n, r) -> ps_status p = DONE ->
  ps_tx p = parsed_tx v /\ exists ins, ps_ins p = Some ins /\ length ins = length (t_ins (ps_tx p)) /\
  map (fun m => to_amount (im_out m)) ins = map amount0 amounts /\ Forall (fun a => 0 <= amount0 a) amounts.
Proof.
  intros v global mi mo rest p n r amounts V F T E D. pose proof (input_run _ _ _ _ _ _ _ _ _ ready_new V F E D) as (ins & EI & L & H).
  pose proof (whole_done _ _ _ _ _ _ _ _ _ ready_new V F E D) as (TX & _).
  destruct F as (LI & LO & PG & PM). apply Forall_app in PM as [PM _]. destruct V as (((V1 & V2 & FI & FO) & _) & _).
  split; [auto|]. exists ins. split; [auto|].
  assert (TI : length (t_ins (parsed_tx v)) = length (s_ins v)) by (unfold parsed_tx; cbn [t_ins]; destruct (has_witness v); apply map_length).
  rewrite TX, TI. split; [auto|]. eapply amounts_run; eauto.
Qed.

Lemma psbt_fee_ok : forall v global mi mo rest p n r amounts, psbt_tx v -> fits_maps v global mi mo -> inputs_tell dsha (s_ins v) mi amounts ->
  parse psbt_new (wire_psbt (wire_tx v) global (mi ++ mo) ++ rest) = Ok (p, n, r) -> ps_status p = DONE ->
  Forall (fun a => a <> Some 0) amounts -> total (known_amounts amounts) < 2^64 -> total (map so_value (s_outs v)) < 2^64 ->
  psbt_fee p = Ok (s_fee amounts v).
Proof.
  intros v global mi mo rest p n r amounts V F T E D NZ S1 S2. pose proof (parsed_amounts _ _ _ _ _ _ _ _ _ V F T E D) as (TX & ins & EI & L & M & NN).
  destruct V as (((V1 & V2 & FI & FO) & _) & _).
  assert (PO : Forall (fun o => 0 <= to_amount o) (t_outs (ps_tx p))).
  { rewrite TX. apply (Forall_map' to_amount (fun a => 0 <= a)). rewrite out_amounts. apply map_Forall'. eapply Forall_impl; [|exact FO]. intros o (K & _). lia. }
  assert (PI : Forall (fun m => 0 <= to_amount (im_out m)) ins).
  { apply (Forall_map' (fun m => to_amount (im_out m)) (fun a => 0 <= a)). rewrite M. apply map_Forall'. exact NN. }
  assert (E1 : zsum (map (fun m => to_amount (im_out m)) ins) = total (known_amounts amounts)) by (rewrite M; apply known_sum).
  assert (E2 : zsum (map to_amount (t_outs (ps_tx p))) = total (map so_value (s_outs v))) by (rewrite TX, out_amounts; reflexivity).
  rewrite (fee_shaped p ins EI L PI PO) by lia.
  rewrite (existsb_map' (fun m => to_amount (im_out m)) (fun a => a =? 0)), M, some_unknown by auto. unfold s_fee.
  rewrite known_sum, E2. destruct (all_known amounts); reflexivity.
Qed.

(** Outputs whose sum does not fit: the sum wraps round. *)
Lemma psbt_fee_mod : forall v global mi mo rest p n r amounts, psbt_tx v -> fits_maps v global mi mo -> inputs_tell dsha (s_ins v) mi amounts ->
  parse psbt_new (wire_psbt (wire_tx v) global (mi ++ mo) ++ rest) = Ok (p, n, r) -> ps_status p = DONE ->
  Forall (fun a => a <> Some 0) amounts -> all_known amounts = true -> total (known_amounts amounts) < 2^64 ->
  total (map so_value (s_outs v)) mod 2^64 < total (known_amounts amounts) ->
  psbt_fee p = Ok (total (known_amounts amounts) - total (map so_value (s_outs v)) mod 2^64).
Proof.
  intros v global mi mo rest p n r amounts V F T E D NZ AK S1 S2. pose proof (parsed_amounts _ _ _ _ _ _ _ _ _ V F T E D) as (TX & ins & EI & L & M & NN).
  assert (PI : Forall (fun m => 0 <= to_amount (im_out m)) ins).
  { apply (Forall_map' (fun m => to_amount (im_out m)) (fun a => 0 <= a)). rewrite M. apply map_Forall'. exact NN. }
  assert (E1 : zsum (map (fun m => to_amount (im_out m)) ins) = total (known_amounts amounts)) by (rewrite M; apply known_sum).
  unfold psbt_fee. pose proof (input_sum ins [] p EI 0 ltac:(lia) PI ltac:(lia)) as H. change (len (@nil inmeta)) with 0 in H. rewrite <- L, H, bind_ok. cbv beta.
  rewrite (existsb_map' (fun m => to_amount (im_out m)) (fun a => a =? 0)), M, some_unknown, AK by auto. cbn [negb]. cbv zeta.
  unfold output_amount. rewrite output_mod by lia. rewrite Z.add_0_l, TX, out_amounts, known_sum.
  change (zsum (map so_value (s_outs v))) with (total (map so_value (s_outs v))). rewrite Z.add_0_l.
  set (b := total (map so_value (s_outs v)) mod 2^64) in *. destruct (Z.ltb_spec (total (known_amounts amounts)) b); [lia|].
  assert (0 <= b < 2^64) by (unfold b; apply Z.mod_pos_bound; lia). rewrite u64_id by lia. reflexivity.
Qed.
(** A known amount of zero counts as missing. *)
Lemma psbt_fee_zero : forall v global mi mo rest p n r amounts, psbt_tx v -> fits_maps v global mi mo -> inputs_tell dsha (s_ins v) mi amounts ->
  parse psbt_new (wire_psbt (wire_tx v) global (mi ++ mo) ++ rest) = Ok (p, n, r) -> ps_status p = DONE ->
  In (Some 0) amounts -> total (known_amounts amounts) < 2^64 -> psbt_fee p = Ok 0.
Proof.
  intros v global mi mo rest p n r amounts V F T E D IN S1. pose proof (parsed_amounts _ _ _ _ _ _ _ _ _ V F T E D) as (TX & ins & EI & L & M & NN).
  assert (PI : Forall (fun m => 0 <= to_amount (im_out m)) ins).
  { apply (Forall_map' (fun m => to_amount (im_out m)) (fun a => 0 <= a)). rewrite M. apply map_Forall'. exact NN. }
  assert (E1 : zsum (map (fun m => to_amount (im_out m)) ins) = total (known_amounts amounts)) by (rewrite M; apply known_sum).
  unfold psbt_fee. pose proof (input_sum ins [] p EI 0 ltac:(lia) PI ltac:(lia)) as H. change (len (@nil inmeta)) with 0 in H. rewrite <- L, H, bind_ok. cbv beta.
  rewrite (existsb_map' (fun m => to_amount (im_out m)) (fun a => a =? 0)), M.
  replace (existsb _ _) with true; [reflexivity|]. symmetry. apply existsb_exists. exists 0. split; [|reflexivity]. apply (in_map amount0) in IN. exact IN.
Qed.

(** ** Previous transactions *)
Lemma pairs_in_split : forall {A} (f : A -> list Z * list Z -> outcome (A * Z)) l e x y, In e l -> pairs_on f x l = Ok (y, true) ->
  exists z z' res, f z e = Ok (z', res) /\ 0 <= res.
Proof.
  intros A f l e x y I H. apply in_split in I as (l1 & l2 & ->). apply pairs_app in H as (z & _ & H). apply pairs_cons in H as (z' & res & E & R & _). eauto.
Qed.
Lemma prev_checked : forall p v global mi mo rest p' n r, ready p -> psbt_tx v -> fits_maps v global mi mo ->
  parse p (wire_psbt (wire_tx v) global (mi ++ mo) ++ rest) = Ok (p', n, r) -> ps_status p' = DONE ->
  forall j i m b, nth_error (s_ins v) j = Some i -> nth_error mi j = Some m -> In ([0], b) m -> plain_length (len b) ->
  exists t k s, tx_parse tx_new b = Ok (t, k, s) /\ t_status t = DONE /\ tx_hash dsha t = Ok (si_prev i) /\ si_vout i < len (t_outs t).
Proof.
  intros p v global mi mo rest p' n r RP V F E D j i m b NI NM IN PL. destruct (input_run _ _ _ _ _ _ _ _ _ RP V F E D) as (ins & EI & L & H).
  destruct (H j i m NI NM) as (ti & x & TH & TX & NX & PX). destruct (pairs_in_split _ _ _ _ _ IN PX) as (z & z' & res & EE & R).
  destruct F as (_ & _ & _ & PM). apply Forall_app in PM as [PM _]. rewrite Forall_forall in PM. specialize (PM m (nth_error_In _ _ NM)).
  rewrite Forall_forall in PM. destruct (PM _ IN) as (_ & _ & _ & B & LB). cbn [snd] in *.
  destruct (entry_prev dsha garbage z ti b z' res B LB PL EE R) as (t & k & s & o & A1 & A2 & A3 & A4 & A5 & _). exists t, k, s. rewrite <- TH, <- TX. auto.
Qed.
Lemma prev_checked_wire : forall p v global mi mo rest p' n r, ready p -> psbt_tx v -> fits_maps v global mi mo ->
  parse p (wire_psbt (wire_tx v) global (mi ++ mo) ++ rest) = Ok (p', n, r) -> ps_status p' = DONE ->
  forall j i m e w, nth_error (s_ins v) j = Some i -> nth_error mi j = Some m -> In e m -> prev_entry e w -> spends dsha i w.
Proof.
  intros p v global mi mo rest p' n r RP V F E D j i m e w NI NM IN (-> & C). pose proof C as C0. destruct C as (TO & WO & NI' & NO & LW & PL).
  destruct (prev_checked _ _ _ _ _ _ _ _ _ RP V F E D j i m _ NI NM IN PL) as (t & k & s & T & S & H & X).
  pose proof (tx_parse_wire tx_new w [] eq_refl TO WO NI' NO) as T'. rewrite app_nil_r, T in T'. injection T' as -> _ _.
  pose proof (parsed_tx_holds w TO WO) as HT. unfold tx_hash in H. rewrite (tx_hash_data_ok _ _ HT) in H by (pose proof (len_nonneg _ (s_outs w)); lia).
  rewrite bind_ok in H. injection H as H. split; [auto|]. unfold parsed_tx in X. cbn [t_outs] in X. unfold len in *. rewrite map_length in X. exact X.
Qed.
End Props.
