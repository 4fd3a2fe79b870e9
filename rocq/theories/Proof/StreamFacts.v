(** Read loops, write loops, and the list view of byte streams. *)
From Coq Require Import Lia.
From Verif Require Import Base.Bytes Base.BytesFacts Model.Conversion Model.Stream.
Open Scope Z_scope.

(** ** Serialization *)

Definition wtake (cap : option nat) (l : list Z) : list Z :=
  match cap with None => l | Some n => firstn n l end.
Definition w_adv (w : wst) (out : list Z) : wst :=
  mkWst (w_pos w + len out)
    (match w_cap w with Some k => Some (k - length out)%nat | None => None end) (w_out w ++ out).

(** [ser] gives, for every offset and capacity, the slice of [bs]. *)
Definition serializes (ser : serializer) (bs : list Z) : Prop :=
  forall cap off, 0 <= off -> ser cap off = Ok (wtake cap (skipn (Z.to_nat off) bs)).

(** [f] writes the bytes [bs], which start at position [base]. *)
Definition writes (base : Z) (bs : list Z) (f : wst -> outcome wst) : Prop :=
  forall w, (base <= w_pos w \/ w_available w = false) ->
    f w = Ok (w_adv w (wtake (w_cap w) (skipn (Z.to_nat (w_pos w - base)) bs))).

Lemma w_adv_nil : forall w, w_adv w [] = w.
Proof.
  intros [p c o]. unfold w_adv. cbn [w_pos w_cap w_out length]. rewrite app_nil_r.
  f_equal; [unfold len; cbn; lia|]. destruct c; f_equal; lia.
Qed.
Lemma w_adv_app : forall w a b, w_adv (w_adv w a) b = w_adv w (a ++ b).
Proof.
  intros [p c o] a b. unfold w_adv. cbn [w_pos w_cap w_out]. rewrite app_assoc, len_app.
  f_equal; [lia|]. destruct c; f_equal. rewrite app_length. lia.
Qed.
Lemma wtake_nil : forall c, wtake c [] = [].
Proof. intros [n|]; cbn; auto using firstn_nil. Qed.
Lemma unavail_take : forall w l, w_available w = false -> wtake (w_cap w) l = [].
Proof. intros [p c o] l. unfold w_available. cbn. destruct c as [[|n]|]; try discriminate. auto. Qed.
Lemma w_put_adv : forall w b, w_put w b = w_adv w [b].
Proof.
  intros [p c o] b. unfold w_put, w_adv. cbn [w_pos w_cap w_out length]. f_equal.
  destruct c; f_equal. lia.
Qed.

Lemma writes_unavail : forall base bs f w, writes base bs f -> w_available w = false -> f w = Ok w.
Proof. intros. rewrite H by auto. rewrite unavail_take, w_adv_nil by auto. auto. Qed.

Lemma writes_seq : forall base a b f g, writes base a f -> writes (base + len a) b g ->
  writes base (a ++ b) (fun w => let! w1 := f w in g w1).
Proof.
  intros base a b f g F G w HW. rewrite F by auto. cbn [bind].
  destruct (w_available w) eqn:AV.
  2:{ rewrite !unavail_take, !w_adv_nil by auto. apply writes_unavail with (1 := G); auto. }
  destruct HW as [HW|HW]; [|congruence].
  set (k := Z.to_nat (w_pos w - base)).
  destruct (Nat.le_gt_cases (length a) k) as [L|L].
  - rewrite skipn_all2 with (l := a) by lia. rewrite wtake_nil, w_adv_nil.
    rewrite G by (unfold len; lia).
    rewrite skipn_app, skipn_all2 with (l := a) by lia. cbn [app].
    do 4 f_equal. unfold len. lia.
  - rewrite skipn_app. replace (k - length a)%nat with 0%nat by lia. cbn [skipn].
    set (sa := skipn k a) in *.
    assert (LS : length sa = (length a - k)%nat) by (unfold sa; rewrite skipn_length; auto).
    assert (P : w_pos (w_adv w sa) = base + len a) by (unfold w_adv; cbn [w_pos]; unfold len; lia).
    destruct (w_cap w) as [n|] eqn:C.
    + destruct (Nat.le_gt_cases n (length sa)) as [N|N].
      * cbn [wtake]. rewrite firstn_app. replace (n - length sa)%nat with 0%nat by lia.
        cbn [firstn]. rewrite app_nil_r.
        apply writes_unavail with (1 := G).
        unfold w_available, w_adv. cbn [w_cap]. rewrite C, firstn_length.
        replace (n - Init.Nat.min n (length sa))%nat with 0%nat by lia. auto.
      * cbn [wtake]. rewrite firstn_all2 with (l := sa) by lia.
        rewrite G by (left; lia). rewrite P.
        replace (w_cap (w_adv w sa)) with (Some (n - length sa)%nat) by (unfold w_adv; cbn [w_cap]; rewrite C; auto).
        rewrite Z.sub_diag. change (Z.to_nat 0) with 0%nat. cbn [skipn wtake].
        rewrite w_adv_app. rewrite firstn_app. rewrite (firstn_all2 sa) by lia. auto.
    + cbn [wtake]. rewrite G by (left; lia). rewrite P.
      replace (w_cap (w_adv w sa)) with (@None nat) by (unfold w_adv; cbn [w_cap]; rewrite C; auto).
      rewrite Z.sub_diag. change (Z.to_nat 0) with 0%nat. cbn [skipn wtake].
      rewrite w_adv_app. auto.
Qed.

Lemma writes_nil : forall base f, (forall w, f w = Ok w) -> writes base [] f.
Proof. intros base f H w _. rewrite skipn_nil, wtake_nil, w_adv_nil. auto. Qed.
Lemma writes_ext : forall base bs f g, (forall w, f w = g w) -> writes base bs f -> writes base bs g.
Proof. intros base bs f g E F w H. rewrite <- E. auto. Qed.
Lemma writes_serializes : forall bs f ser, writes 0 bs f ->
  (forall cap off, ser cap off = let! w := f (mkWst off cap []) in Ok (w_out w)) -> serializes ser bs.
Proof.
  intros bs f ser F E cap off H. rewrite E, F by (cbn; auto). cbn [bind w_adv w_out w_pos w_cap app].
  rewrite Z.sub_0_r. auto.
Qed.

Lemma skipn_nth : forall (l : list Z) j, (j < length l)%nat -> skipn j l = nth j l 0 :: skipn (S j) l.
Proof.
  induction l as [|x t IH]; intros [|j] H; cbn [length] in H; try lia; [reflexivity|].
  cbn [skipn nth]. rewrite IH by lia. reflexivity.
Qed.
Lemma writes_loop : forall fuel base n arr, 0 <= n <= len arr -> (Z.to_nat n <= fuel)%nat ->
  writes base (firstn (Z.to_nat n) arr) (write_loop fuel base n arr).
Proof.
  intros fuel base n arr HN HF w HW.
  assert (Q : forall fuel w, (base <= w_pos w \/ w_available w = false) ->
    (Z.to_nat (base + n - w_pos w) <= fuel)%nat ->
    write_loop fuel base n arr w =
      Ok (w_adv w (wtake (w_cap w) (skipn (Z.to_nat (w_pos w - base)) (firstn (Z.to_nat n) arr))))).
  { clear w HW fuel HF. induction fuel as [|k IH]; intros w HW HF; cbn [write_loop].
    - destruct (w_available w) eqn:AV; cbn [andb].
      + destruct HW as [HW|]; [|congruence].
        destruct (Z.ltb_spec (w_pos w) (base + n)); [lia|].
        rewrite skipn_all2, wtake_nil, w_adv_nil; auto.
        rewrite firstn_length. unfold len in HN. lia.
      + rewrite unavail_take, w_adv_nil by auto. auto.
    - destruct (w_available w) eqn:AV; cbn [andb].
      + destruct HW as [HW|]; [|congruence].
        destruct (Z.ltb_spec (w_pos w) (base + n)).
        * unfold aget.
          replace ((0 <=? w_pos w - base) && (w_pos w - base <? len arr)) with true.
          2:{ symmetry. apply andb_true_intro. split; [apply Z.leb_le|apply Z.ltb_lt]; lia. }
          cbn [bind]. rewrite w_put_adv, IH.
          2:{ left. unfold w_adv. cbn [w_pos]. unfold len. lia. }
          2:{ unfold w_adv. cbn [w_pos]. unfold len; cbn [length]. lia. }
          rewrite w_adv_app. do 2 f_equal.
          set (j := Z.to_nat (w_pos w - base)).
          assert (E : skipn j (firstn (Z.to_nat n) arr) =
                      nth j arr 0 :: skipn (S j) (firstn (Z.to_nat n) arr)).
          { assert (J : (j < length (firstn (Z.to_nat n) arr))%nat)
              by (rewrite firstn_length; unfold len in HN; lia).
            replace (nth j arr 0) with (nth j (firstn (Z.to_nat n) arr) 0).
            - apply skipn_nth; auto.
            - rewrite <- (firstn_skipn (Z.to_nat n) arr) at 2. rewrite app_nth1; auto. }
          rewrite E. unfold w_adv. cbn [w_pos w_cap].
          replace (Z.to_nat (w_pos w + len [nth j arr 0] - base)) with (S j) by (unfold len; cbn [length]; lia).
          unfold w_available in AV. destruct (w_cap w) as [[|c]|]; try discriminate.
          -- cbn [wtake firstn length]. replace (S c - 1)%nat with c by lia. auto.
          -- cbn [wtake]. auto.
        * rewrite skipn_all2, wtake_nil, w_adv_nil; auto.
          rewrite firstn_length. unfold len in HN. lia.
      + rewrite unavail_take, w_adv_nil by auto. auto. }
  destruct HW as [HW|HW].
  - apply Q; auto. lia.
  - destruct fuel; cbn [write_loop]; rewrite HW; cbn [andb]; rewrite unavail_take, w_adv_nil; auto.
Qed.

Lemma writes_loop_all : forall fuel base arr n, n = len arr -> (length arr <= fuel)%nat ->
  writes base arr (write_loop fuel base n arr).
Proof.
  intros fuel base arr n -> H.
  pose proof (writes_loop fuel base (len arr) arr) as W.
  unfold len in *. rewrite Nat2Z.id, firstn_all in W. apply W; lia.
Qed.

Lemma writes_obj : forall base bs ser, serializes ser bs -> 0 <= base -> base + len bs < 2^64 ->
  writes base bs (write_obj base (len bs) ser).
Proof.
  intros base bs ser S HB HL w HW. unfold write_obj.
  destruct (w_available w) eqn:AV; cbn [andb].
  2:{ rewrite unavail_take, w_adv_nil by auto. auto. }
  destruct HW as [HW|]; [|congruence].
  destruct (Z.ltb_spec (w_pos w) (base + len bs)).
  - rewrite u64_id by lia. rewrite S by lia. cbn [bind]. unfold w_adv. destruct (w_cap w); auto.
  - rewrite skipn_all2, wtake_nil, w_adv_nil; auto. unfold len in *. lia.
Qed.

Lemma writes_one : forall base b arr n, 0 < n -> aget arr 0 = Ok b -> n = 1 ->
  writes base [b] (write_one base n arr).
Proof.
  intros base b arr n HN A -> w HW. unfold write_one.
  destruct (w_available w) eqn:AV; cbn [andb].
  2:{ rewrite unavail_take, w_adv_nil by auto. auto. }
  destruct HW as [HW|]; [|congruence].
  destruct (Z.ltb_spec (w_pos w) (base + 1)).
  - replace (w_pos w - base) with 0 by lia. rewrite A. cbn [bind]. rewrite w_put_adv.
    cbn [Z.to_nat skipn]. unfold w_available in AV. destruct (w_cap w) as [[|c]|]; try discriminate; cbn [wtake firstn]; rewrite ?firstn_nil; auto.
  - rewrite skipn_all2, wtake_nil, w_adv_nil; auto. cbn [length]. lia.
Qed.

Lemma serializes_all : forall ser bs, serializes ser bs -> ser None 0 = Ok bs.
Proof. intros ser bs H. rewrite H by lia. reflexivity. Qed.

(** What [serialize] returns. *)
Lemma serialize_slice : forall ser bs n off, serializes ser bs -> 0 <= off ->
  let sl := firstn n (skipn (Z.to_nat off) bs) in
  serialize ser n off = Ok (len sl, sl ++ zeros (n - length sl)).
Proof. intros. unfold serialize. rewrite H by auto. reflexivity. Qed.
Lemma serialize_full : forall ser bs n, serializes ser bs -> length bs = n ->
  serialize ser n 0 = Ok (len bs, bs).
Proof.
  intros ser bs n H <-. rewrite (serialize_slice ser bs) by (auto; lia).
  cbn [Z.to_nat skipn]. rewrite firstn_all, Nat.sub_diag. cbn [zeros repeat]. rewrite app_nil_r. auto.
Qed.

(** ** Parsing *)

Lemma read_loop_o_app : forall {St} limit (f : St -> Z -> Z -> outcome St) a b pos st,
  read_loop_o limit pos f st (a ++ b) =
    let! r := read_loop_o limit pos f st a in
    let '(st1, pos1, r1) := r in
    match r1 with
    | [] => read_loop_o limit pos1 f st1 b
    | _ => Ok (st1, pos1, r1 ++ b)
    end.
Proof.
  induction a as [|c t IH]; intros b pos st; cbn [app read_loop_o bind]; auto.
  destruct (pos <? limit); cbn [bind].
  - destruct (f st pos c); cbn [bind]; auto.
  - reflexivity.
Qed.
Lemma read_loop_o_stop : forall {St} limit (f : St -> Z -> Z -> outcome St) s pos st,
  limit <= pos -> read_loop_o limit pos f st s = Ok (st, pos, s).
Proof. intros. destruct s; cbn; auto. destruct (Z.ltb_spec pos limit); auto; lia. Qed.

(** Where a read loop stops. *)
Lemma read_loop_o_pos : forall {St} limit (f : St -> Z -> Z -> outcome St) s pos st st1 pos1 r,
  read_loop_o limit pos f st s = Ok (st1, pos1, r) ->
  pos1 - pos = len s - len r /\ pos <= pos1 /\ (pos1 <= Z.max limit pos) /\ (r = [] \/ limit <= pos1) /\ (s = (firstn (Z.to_nat (pos1 - pos)) s) ++ r).
Proof.
  induction s as [|c t IH]; intros pos st st1 pos1 r H; cbn [read_loop_o] in H.
  - injection H as <- <- <-. rewrite Z.sub_diag. change (Z.to_nat 0) with 0%nat. cbn [firstn app]. repeat split; auto; lia.
  - destruct (Z.ltb_spec pos limit).
    + destruct (f st pos c) as [s1|]; cbn [bind] in H; [|discriminate].
      apply IH in H as (A & B & C & D & E). rewrite len_cons. repeat split; try lia.
      * destruct D; auto.
      * replace (Z.to_nat (pos1 - pos)) with (S (Z.to_nat (pos1 - (pos + 1)))) by lia.
        cbn [firstn app]. f_equal. auto.
    + injection H as <- <- <-. rewrite Z.sub_diag. change (Z.to_nat 0) with 0%nat. cbn [firstn app]. repeat split; auto; lia.
Qed.

(** Filling an array byte by byte. *)
Lemma set_nth_split : forall (l : list Z) i v, (i < length l)%nat ->
  set_nth l i v = firstn i l ++ v :: skipn (S i) l.
Proof.
  induction l as [|x t IH]; intros [|i] v H; cbn in H; try lia; cbn; auto.
  rewrite IH by lia. auto.
Qed.
Lemma fill_loop : forall base limit g, (forall a p c, g a p c = aset a (p - base) c) ->
  forall s pos pre arr, base + len pre = pos -> limit <= base + len pre + len arr ->
  let k := Nat.min (length s) (Z.to_nat (limit - pos)) in
  read_loop_o limit pos g (pre ++ arr) s =
    Ok (pre ++ firstn k s ++ skipn k arr, pos + Z.of_nat k, skipn k s).
Proof.
  intros base limit g G. induction s as [|c t IH]; intros pos pre arr HP HL k.
  - unfold k. cbn. rewrite Z.add_0_r. auto.
  - cbn [read_loop_o]. destruct (Z.ltb_spec pos limit).
    + rewrite G. unfold aset.
      replace ((0 <=? pos - base) && (pos - base <? len (pre ++ arr))) with true.
      2:{ symmetry. rewrite len_app. pose proof (len_nonneg _ pre).
          apply andb_true_intro. split; [apply Z.leb_le|apply Z.ltb_lt]; lia. }
      cbn [bind]. destruct arr as [|x arr]; [rewrite len_nil in HL; lia|].
      assert (EP : Z.to_nat (pos - base) = length pre) by (unfold len in HP; lia).
      rewrite EP.
      replace (set_nth (pre ++ x :: arr) (length pre) c) with ((pre ++ [c]) ++ arr).
      2:{ rewrite set_nth_split by (rewrite app_length; cbn; lia).
          rewrite firstn_app_len by auto.
          rewrite skipn_app. replace (S (length pre) - length pre)%nat with 1%nat by lia.
          rewrite skipn_all2 by lia. rewrite <- app_assoc. reflexivity. }
      rewrite IH.
      2:{ rewrite len_app. unfold len at 2. cbn [length]. lia. }
      2:{ rewrite len_app. rewrite len_cons in HL. unfold len at 2. cbn [length]. lia. }
      unfold k. cbn [length]. replace (Z.to_nat (limit - pos)) with (S (Z.to_nat (limit - (pos + 1)))) by lia.
      cbn [Nat.min firstn skipn]. rewrite <- app_assoc. cbn [app].
      do 2 f_equal. f_equal. lia.
    + unfold k. replace (Z.to_nat (limit - pos)) with 0%nat by lia. rewrite Nat.min_0_r.
      cbn [firstn skipn app]. rewrite Z.add_0_r. auto.
Qed.
