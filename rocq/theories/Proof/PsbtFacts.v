(** Parsing of a well-formed PSBT is its entries added one after the other. *)
From Coq Require Import Lia.
From Verif Require Import Base.Bytes Base.BytesFacts Spec.Codecs Spec.Wire Spec.Objects Spec.PSBT Model.Conversion Model.Stream Model.Script Model.Tx Model.PSBT
  Proof.ScriptFacts Proof.TxParse Proof.TxIo.
Open Scope Z_scope.

Lemma bind_ok : forall {A B} (a : A) (f : A -> outcome B), (let! x := Ok a in f x) = f a.
Proof. reflexivity. Qed.
Ltac step E := rewrite E, bind_ok; cbv beta.

Definition settled (s : script) : Prop := sc_status s = DONE /\ sc_len s = len (sc_arr s).
Lemma parsed_settled : forall bs, settled (parsed_script bs).
Proof. split; reflexivity. Qed.
Lemma parsed_done : forall bs, is_done (parsed_script bs) = true.
Proof. reflexivity. Qed.
Lemma settled_done : forall s, settled s -> is_done s = true.
Proof. intros s [H _]. unfold is_done. rewrite H. reflexivity. Qed.
Lemma wire_len1 : forall bs, len (wire_bytes bs) = 1 <-> bs = [].
Proof.
  intros bs. unfold wire_bytes. rewrite len_app. split; [|intros ->; reflexivity].
  destruct bs as [|b t]; auto. intros H. pose proof (len_nonneg _ t). rewrite len_cons in *.
  assert (1 <= len (compact_size (1 + len t))); [|lia]. unfold compact_size.
  repeat match goal with |- context [if ?c then _ else _] => destruct c end; unfold len; cbn [length]; lia.
Qed.

Section Facts.
Variable dsha : list Z -> list Z.
Variable garbage : list Z.
Notation add := (add_meta dsha garbage).
Notation round := (psbt_round dsha garbage).
Notation loop := (psbt_loop dsha garbage).

Fixpoint run_pairs (t : tx) (m : metas) (sec : Z) (l : list (list Z * list Z)) : outcome (metas * bool) :=
  match l with
  | [] => Ok (m, true)
  | (k, v) :: l => let! r := add t m sec (parsed_script k) (parsed_script v) in
                   if snd r <? 0 then Ok (fst r, false) else run_pairs t (fst r) sec l
  end.
Fixpoint run_maps (t : tx) (m : metas) (sec : Z) (maps : list (list (list Z * list Z))) : outcome (metas * bool) :=
  match maps with
  | [] => Ok (m, true)
  | l :: maps => let! r := run_pairs t m sec l in
                 if snd r then run_maps t (fst r) (sec + 1) maps else Ok r
  end.

(** [p] with other scripts, metadata and position. *)
Definition moved (p : psbt) (k v : script) (sec last : Z) (m : metas) : psbt :=
  mkPsbt k v sec last (ps_tx p) (fst m) (snd m) (ps_status p) (ps_parsed p).

Lemma round_pair : forall p k v rest, settled (ps_key p) -> settled (ps_value p) -> pair_ok (k, v) ->
  round p (wire_pair (k, v) ++ rest) =
  let! r := add (ps_tx p) (ps_metas p) (ps_section p) (parsed_script k) (parsed_script v) in
  Ok (moved p (parsed_script k) (parsed_script v) (ps_section p) (if snd r <? 0 then ps_last p else ps_last p + len (wire_pair (k, v))) (fst r),
      len (wire_pair (k, v)), rest, negb (snd r <? 0)).
Proof.
  intros p k v rest SK SV (NE & BK & LK & BV & LV). cbn [fst snd] in *. unfold psbt_round, wire_pair. cbn [fst snd].
  rewrite (settled_done _ SK), (settled_done _ SV). cbn [andb parse_if]. rewrite <- app_assoc.
  rewrite script_parse_wire by (auto; apply SK). rewrite bind_ok. cbv beta iota zeta.
  rewrite parsed_done, parsed_script_length by auto. cbn [andb].
  destruct (Z.eqb_spec (len (wire_bytes k)) 1) as [E|_]; [apply wire_len1 in E; contradiction|].
  cbn [parse_if]. rewrite script_parse_wire by (auto; apply SV). rewrite bind_ok. cbv beta iota zeta.
  change (is_failed (parsed_script k)) with false. change (is_failed (parsed_script v)) with false. cbn [orb].
  change (is_incomplete (parsed_script k)) with false. change (is_incomplete (parsed_script v)) with false. unfold parse_if.
  rewrite !bind_ok. cbv beta iota zeta. rewrite parsed_done. rewrite parsed_done. cbn [andb].
  unfold psbt_add. cbn [ps_set_value ps_set_key ps_tx ps_section].
  change (ps_metas (ps_set_value (ps_set_key p (parsed_script k)) (parsed_script v))) with (ps_metas p).
  destruct (add (ps_tx p) (ps_metas p) (ps_section p) (parsed_script k) (parsed_script v)) as [[m res]|]; [|reflexivity].
  rewrite !bind_ok. cbv beta iota zeta. cbn [fst snd]. rewrite !parsed_script_length by auto. rewrite len_app.
  destruct (res <? 0); cbn [negb]; rewrite !Z.add_0_r; reflexivity.
Qed.
Lemma round_delim : forall p rest, settled (ps_key p) -> settled (ps_value p) ->
  round p (0 :: rest) = Ok (moved p (parsed_script []) (ps_value p) (u8 (ps_section p + 1)) (ps_last p + 1) (ps_metas p), 1, rest, true).
Proof.
  intros p rest SK SV. unfold psbt_round. rewrite (settled_done _ SK), (settled_done _ SV). cbn [andb parse_if].
  change (0 :: rest) with (wire_bytes [] ++ rest).
  rewrite script_parse_wire by (try apply SK; try apply Forall_nil; reflexivity). rewrite bind_ok. cbv beta iota zeta.
  rewrite parsed_done, parsed_script_length by (try apply Forall_nil; reflexivity).
  change (len (wire_bytes [])) with 1. cbn [andb Z.eqb Pos.eqb]. reflexivity.
Qed.

Lemma pair_nonempty : forall k v, exists c t, wire_pair (k, v) = c :: t.
Proof.
  intros k v. destruct (wire_pair (k, v)) eqn:E; eauto. exfalso.
  assert (H : len (wire_pair (k, v)) = 0) by (rewrite E; reflexivity). unfold wire_pair, wire_bytes in H.
  cbn [fst snd] in H. rewrite !len_app in H. pose proof (len_nonneg _ k). pose proof (len_nonneg _ v).
  pose proof (len_nonneg _ (compact_size (len v))).
  assert (1 <= len (compact_size (len k))); [|lia]. unfold compact_size.
  repeat match goal with |- context [if ?c then _ else _] => destruct c end; unfold len; cbn [length]; lia.
Qed.
Lemma pair_fuel : forall fuel k v (rest : list Z), (length (wire_pair (k, v) ++ rest) <= fuel)%nat -> exists f, fuel = S f /\ (length rest <= f)%nat.
Proof.
  intros fuel k v rest H. destruct (pair_nonempty k v) as (c & t & E). rewrite E in H. cbn [app length] in H. rewrite app_length in H.
  destruct fuel as [|f]; [lia|]. exists f. split; auto. lia.
Qed.
Lemma loop_step : forall f sections p n st, st <> [] -> ps_section p < sections ->
  loop (S f) sections p n st = let! r := round p st in
    let '(p1, n1, st1, ok) := r in if ok then loop f sections p1 (n + n1) st1 else Ok (p1, n + n1, st1, false).
Proof. intros f sections p n st NE H. destruct st; [congruence|]. cbn [psbt_loop]. destruct (Z.ltb_spec (ps_section p) sections); [reflexivity|lia]. Qed.

Definition settled2 (p : psbt) : Prop := settled (ps_key p) /\ settled (ps_value p).
(** What the loop does with [w], the encoding of something whose entries give [r]. *)
Definition loops (fuel : nat) (sections : Z) (p : psbt) (n : Z) (w rest : list Z) (sec : Z) (r : outcome (metas * bool)) : Prop :=
  match r with
  | UB => loop fuel sections p n (w ++ rest) = UB
  | Ok (m, false) => exists p' n' st', loop fuel sections p n (w ++ rest) = Ok (p', n', st', false)
  | Ok (m, true) => exists f k v, settled k /\ settled v /\ (length rest <= f)%nat /\
      loop fuel sections p n (w ++ rest) = loop f sections (moved p k v sec (ps_last p + len w) m) (n + len w) rest
  end.
Lemma loop_pairs : forall l fuel sections p n rest, settled2 p -> Forall pair_ok l -> ps_section p < sections ->
  (length (flat_map wire_pair l ++ rest) <= fuel)%nat ->
  loops fuel sections p n (flat_map wire_pair l) rest (ps_section p) (run_pairs (ps_tx p) (ps_metas p) (ps_section p) l).
Proof.
  induction l as [|[k v] l IH]; intros fuel sections p n rest [SK SV] P S F.
  - cbn [run_pairs loops flat_map app]. exists fuel, (ps_key p), (ps_value p). do 3 (split; [solve [auto]|]).
    change (len (@nil Z)) with 0. rewrite !Z.add_0_r. destruct p; reflexivity.
  - apply Forall_cons_iff in P as [Pk Pl]. cbn [flat_map] in F. rewrite <- app_assoc in F.
    destruct (pair_fuel _ _ _ _ F) as (f & -> & Ff).
    assert (E : loop (Datatypes.S f) sections p n (flat_map wire_pair ((k, v) :: l) ++ rest) =
      let! r := add (ps_tx p) (ps_metas p) (ps_section p) (parsed_script k) (parsed_script v) in
      if snd r <? 0 then Ok (moved p (parsed_script k) (parsed_script v) (ps_section p) (ps_last p) (fst r), n + len (wire_pair (k, v)), flat_map wire_pair l ++ rest, false)
      else loop f sections (moved p (parsed_script k) (parsed_script v) (ps_section p) (ps_last p + len (wire_pair (k, v))) (fst r)) (n + len (wire_pair (k, v))) (flat_map wire_pair l ++ rest)).
    { cbn [flat_map]. rewrite <- app_assoc. rewrite loop_step by (auto; destruct (pair_nonempty k v) as (c & t & ->); discriminate).
      rewrite round_pair by auto. destruct (add _ _ _ _ _) as [[m res]|]; [|reflexivity]. rewrite !bind_ok. cbv beta iota zeta. cbn [fst snd].
      destruct (res <? 0); reflexivity. }
    cbn [run_pairs]. destruct (add (ps_tx p) (ps_metas p) (ps_section p) (parsed_script k) (parsed_script v)) as [[m res]|] eqn:A.
    2:{ cbn [bind loops]. exact E. }
    rewrite bind_ok. rewrite bind_ok in E. cbv beta in *. cbn [fst snd] in *.
    destruct (res <? 0).
    + unfold loops. do 3 eexists. exact E.
    + specialize (IH f sections (moved p (parsed_script k) (parsed_script v) (ps_section p) (ps_last p + len (wire_pair (k, v))) m)
        (n + len (wire_pair (k, v))) rest). cbn [moved ps_key ps_value ps_section ps_tx ps_last] in IH. unfold ps_metas in IH. cbn [moved ps_ins ps_outs] in IH.
      replace (fst m, snd m) with m in IH by (destruct m; reflexivity).
      specialize (IH (conj (parsed_settled k) (parsed_settled v)) Pl S Ff).
      unfold loops in *. destruct (run_pairs (ps_tx p) m (ps_section p) l) as [[m' [|]]|]; rewrite E; auto.
      destruct IH as (f' & k' & v' & S1 & S2 & L' & EQ). exists f', k', v'. do 3 (split; [solve [auto]|]). rewrite EQ.
      cbn [flat_map]. rewrite len_app. unfold moved. cbn [ps_tx ps_status ps_parsed ps_last]. rewrite !Z.add_assoc. reflexivity.
Qed.
Lemma loop_map : forall l fuel sections p n rest, settled2 p -> Forall pair_ok l -> 0 <= ps_section p < sections -> sections <= 255 ->
  (length (wire_map l ++ rest) <= fuel)%nat ->
  loops fuel sections p n (wire_map l) rest (ps_section p + 1) (run_pairs (ps_tx p) (ps_metas p) (ps_section p) l).
Proof.
  intros l fuel sections p n rest SP P S S2 F. unfold wire_map in *. rewrite <- app_assoc in F. cbn [app] in F.
  pose proof (loop_pairs l fuel sections p n (0 :: rest) SP P ltac:(lia) F) as H.
  unfold loops in *. rewrite <- app_assoc. cbn [app].
  destruct (run_pairs (ps_tx p) (ps_metas p) (ps_section p) l) as [[m [|]]|]; auto.
  destruct H as (f & k & v & Sk & Sv & L & E). cbn [length] in L. destruct f as [|f]; [lia|].
  exists f, (parsed_script []), v. split; [apply parsed_settled|]. split; [auto|]. split; [lia|].
  rewrite E, loop_step by (try discriminate; cbn [moved ps_section]; lia).
  rewrite round_delim by auto. rewrite bind_ok. cbv beta iota zeta.
  unfold moved. cbn [ps_tx ps_status ps_parsed ps_last ps_section ps_metas ps_ins ps_outs ps_value fst snd]. rewrite u8_id by lia.
  rewrite len_app. change (len [0]) with 1. rewrite !Z.add_assoc. reflexivity.
Qed.
Lemma loop_maps : forall maps fuel sections p n rest, settled2 p -> Forall (Forall pair_ok) maps -> 0 <= ps_section p ->
  ps_section p + len maps = sections -> sections <= 255 -> (length (flat_map wire_map maps ++ rest) <= fuel)%nat ->
  loops fuel sections p n (flat_map wire_map maps) rest sections (run_maps (ps_tx p) (ps_metas p) (ps_section p) maps).
Proof.
  induction maps as [|l maps IH]; intros fuel sections p n rest SP P S S1 S2 F.
  - cbn [run_maps loops flat_map app]. exists fuel, (ps_key p), (ps_value p). destruct SP. do 3 (split; [solve [auto]|]).
    change (len (@nil Z)) with 0. change (len (@nil (list (list Z * list Z)))) with 0 in S1.
    rewrite !Z.add_0_r in *. subst sections. destruct p; reflexivity.
  - apply Forall_cons_iff in P as [Pl P]. rewrite len_cons in S1. pose proof (len_nonneg _ maps).
    cbn [flat_map] in F. rewrite <- app_assoc in F.
    pose proof (loop_map l fuel sections p n (flat_map wire_map maps ++ rest) SP Pl ltac:(lia) ltac:(lia) F) as H1.
    cbn [run_maps]. unfold loops in *. cbn [flat_map]. rewrite <- app_assoc.
    destruct (run_pairs (ps_tx p) (ps_metas p) (ps_section p) l) as [[m [|]]|]; cbn [bind fst snd]; auto.
    destruct H1 as (f & k & v & Sk & Sv & L & E).
    specialize (IH f sections (moved p k v (ps_section p + 1) (ps_last p + len (wire_map l)) m) (n + len (wire_map l)) rest (conj Sk Sv) P).
    cbn [moved ps_section ps_tx ps_last] in IH. unfold ps_metas in IH. cbn [moved ps_ins ps_outs] in IH.
    replace (fst m, snd m) with m in IH by (destruct m; reflexivity).
    specialize (IH ltac:(lia) ltac:(lia) ltac:(lia) L).
    destruct (run_maps (ps_tx p) m (ps_section p + 1) maps) as [[m' [|]]|]; rewrite E; auto.
    destruct IH as (f' & k' & v' & Sk' & Sv' & L' & EQ). exists f', k', v'. do 3 (split; [solve [auto]|]).
    rewrite EQ, len_app. unfold moved. cbn [ps_tx ps_status ps_parsed ps_last]. rewrite !Z.add_assoc. reflexivity.
Qed.
End Facts.
