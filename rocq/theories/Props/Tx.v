(** Transactions: wire format, identifiers, signature hashes, signing (C15, C17-C23, C58-C60). *)
From Coq Require Import Lia.
From Verif Require Import Base.Bytes Base.BytesFacts Model.Conversion Model.Stream Model.Script Model.Tx Model.Sign
  Spec.Codecs Spec.Wire Spec.Pieces Spec.Objects Spec.Sighash Proof.WitnessPieces Proof.TxWitCuts Proof.WitnessLong Proof.WireInj Proof.TxLimits Proof.TxParse Proof.TxHash Proof.SignFacts Proof.TxLegacy Proof.TxSegwit Proof.TxProps.
Open Scope Z_scope.

(** The transaction used in the examples: two inputs, one of them with a witness
    whose second item is 300 bytes long, and two outputs. *)
Definition ex_tx : s_tx := {|
  s_version := 2;
  s_ins := [ {| si_prev := repeat 17 32; si_vout := 1; si_sig := [1; 2; 3]; si_seq := 4294967295; si_wit := [] |};
             {| si_prev := repeat 34 32; si_vout := 7; si_sig := []; si_seq := 4294967294; si_wit := [[48; 1]; repeat 5 300] |} ];
  s_outs := [ {| so_value := 5000000000; so_script := [0; 20] ++ repeat 9 20 |}; {| so_value := 1; so_script := [] |} ];
  s_lock := 600000 |}.
Definition ex_obj : tx := match tx_parse tx_new (wire_tx ex_tx) with Ok (t, _, _) => t | UB => tx_new end.
Example ex_tx_meets : tx_holds ex_obj ex_tx /\ small_tx ex_tx /\ countable ex_tx /\ has_witness ex_tx = true.
Proof.
  assert (OK : tx_ok ex_tx).
  { unfold tx_ok, ex_tx. cbn [s_version s_ins s_outs s_lock]. split; [lia|]. split; [lia|].
    split; repeat constructor; unfold in_ok, out_ok; cbn [si_prev si_vout si_sig si_seq si_wit so_value so_script];
      try lia; try (apply bytes_ok_bool; reflexivity); apply bytes_ok_lists; reflexivity. }
  assert (W : Forall wit_ok (s_ins ex_tx)).
  { repeat (apply Forall_cons || apply Forall_nil); unfold wit_ok; cbn [si_wit]; (split; [reflexivity|]); (split; [|reflexivity]);
      apply bytes_ok_lists; reflexivity. }
  assert (S : small_tx ex_tx) by (unfold small_tx; cbn; repeat split; try lia; repeat constructor).
  split; [|split; [exact S|split; [split; reflexivity|reflexivity]]].
  destruct (tx_round tx_new ex_tx [] eq_refl OK W (proj1 S) (proj1 (proj2 S))) as (t' & E & _ & H).
  rewrite app_nil_r in E. unfold ex_obj. rewrite E. exact H.
Qed.

(** * C15: witnesses and transactions *)
Theorem C15_witness_slices : forall w els, witness_holds w els ->
  gives_slices (witness_to_stream w) (wire_witness els) /\ witness_length w = len (wire_witness els).
Proof. exact witness_slices. Qed.
Print Assumptions C15_witness_slices.
Theorem C15_tx_slices : forall t v, tx_holds t v -> small_tx v ->
  gives_slices (tx_to_stream t) (wire_tx v) /\ tx_length t = len (wire_tx v).
Proof. exact tx_slices. Qed.
Print Assumptions C15_tx_slices.
Example C15_tx_ex : serialize (tx_to_stream ex_obj) 9 40 =
  Ok (9, [0; 0; 0; 3; 1; 2; 3; 255; 255]) /\ tx_length ex_obj = 445.
Proof. vm_compute. auto. Qed.

(** * C17 *)
(** Bytes of a transaction without the witness marker (their fifth byte, the
    number of inputs, is not 0) that parse in one go give the same object, count
    and rest in any non-empty pieces. *)
Theorem C17_tx_legacy_chunks_partial : forall t chunks t' n r, t_status t = DONE -> chunks <> [] ->
  Forall (fun c => c <> [] /\ bytes_ok c) chunks -> nth 4 (concat chunks) 1 <> 0 ->
  tx_parse t (concat chunks) = Ok (t', n, r) -> t_status t' <> FAILED ->
  feed tx_parse t_status t chunks = Ok (t', n, r).
Proof. exact legacy_chunks. Qed.
Print Assumptions C17_tx_legacy_chunks_partial.
(** So every transaction without witnesses is read back, however it is cut. *)
Theorem C17_tx_legacy_wire : forall t v rest chunks, t_status t = DONE -> tx_ok v ->
  1 <= len (s_ins v) < 253 -> len (s_outs v) < 253 -> has_witness v = false ->
  Forall (fun c => c <> [] /\ bytes_ok c) chunks -> concat chunks = wire_tx v ++ rest ->
  exists t', feed tx_parse t_status t chunks = Ok (t', len (wire_tx v), rest) /\ t_status t' = DONE /\ tx_holds t' v.
Proof. exact legacy_wire_chunks. Qed.
Print Assumptions C17_tx_legacy_wire.
Definition ex_legacy : s_tx := {|
  s_version := 1;
  s_ins := [ {| si_prev := repeat 17 32; si_vout := 1; si_sig := repeat 4 260; si_seq := 4294967295; si_wit := [] |};
             {| si_prev := repeat 34 32; si_vout := 7; si_sig := []; si_seq := 0; si_wit := [] |} ];
  s_outs := [ {| so_value := 5000000000; so_script := repeat 9 300 |}; {| so_value := 1; so_script := [] |} ];
  s_lock := 600000 |}.
Example C17_tx_legacy_ex : exists t' n,
  feed tx_parse t_status tx_new (map (fun b => [b]) (wire_tx ex_legacy)) = Ok (t', n, []) /\ t_status t' = DONE /\
  n = len (wire_tx ex_legacy) /\ tx_parse tx_new (wire_tx ex_legacy) = Ok (t', n, []) /\ nth 4 (wire_tx ex_legacy) 1 = 2.
Proof. vm_compute. eexists. eexists. repeat split. Qed.
(** Cut in front of the witnesses, every segwit transaction fails, although
    parsing it in one go succeeds (C18). *)
Theorem C17_tx_cut_refuted : forall t v, t_status t = DONE -> tx_ok v -> 1 <= len (s_ins v) < 253 -> len (s_outs v) < 253 ->
  exists t', tx_parse t (before_witness v) = Ok (t', len (before_witness v), []) /\ t_status t' = FAILED.
Proof. exact tx_cut. Qed.
Print Assumptions C17_tx_cut_refuted.
Example C17_tx_cut_ex : exists rest, wire_tx ex_tx = before_witness ex_tx ++ rest /\ rest <> [].
Proof. vm_compute. eexists. split; [reflexivity|discriminate]. Qed.
(** The same at every later boundary between two witnesses. *)
Theorem C17_witness_boundary_refuted : forall t v l1 i l2, t_status t = DONE -> tx_ok v -> Forall wit_ok (s_ins v) ->
  s_ins v = l1 ++ i :: l2 -> len (s_ins v) < 253 -> len (s_outs v) < 253 ->
  let part := before_witness v ++ flat_map (fun i => wire_witness (si_wit i)) l1 in bytes_ok part ->
  exists t', tx_parse t part = Ok (t', len part, []) /\ t_status t' = FAILED.
Proof. exact wit_boundary_cut. Qed.
Print Assumptions C17_witness_boundary_refuted.
Example C17_witness_boundary_ex :
  let part := before_witness ex_tx ++ flat_map (fun i => wire_witness (si_wit i)) (firstn 1 (s_ins ex_tx)) in
  s_ins ex_tx = firstn 1 (s_ins ex_tx) ++ skipn 1 (s_ins ex_tx) /\ len (skipn 1 (s_ins ex_tx)) = 1 /\
  firstn (length part) (wire_tx ex_tx) = part /\ len part < len (wire_tx ex_tx) /\
  match tx_parse tx_new part with Ok (t', _, _) => t_status t' = FAILED | UB => False end.
Proof. vm_compute. repeat split. Qed.
(** Every unlucky cut inside the length of the last output's script fails as
    well: the part is taken for the whole. *)
Theorem C17_long_output_refuted : forall t v l o part rest, t_status t = DONE -> tx_ok v -> 1 <= len (s_ins v) < 253 -> len (s_outs v) < 253 ->
  s_outs v = l ++ [o] -> before_witness v = part ++ rest -> unlucky (len (so_script o)) (len rest) ->
  exists t', tx_parse t part = Ok (t', len part, []) /\ t_status t' = FAILED.
Proof. exact long_output_cut. Qed.
Print Assumptions C17_long_output_refuted.
Example C17_long_output_ex :
  let v := {| s_version := 2; s_ins := s_ins ex_tx; s_outs := [{| so_value := 7; so_script := repeat 106 300 |}]; s_lock := 0 |} in
  let part := firstn (length (before_witness v) - 302) (before_witness v) in
  last part 0 = 253 /\
  match tx_parse tx_new part, tx_parse tx_new (wire_tx v) with
  | Ok (t1, _, _), Ok (t2, _, _) => t_status t1 = FAILED /\ t_status t2 = DONE
  | _, _ => False
  end.
Proof. vm_compute. repeat split. Qed.
(** A script of 257 bytes can be cut unluckily after the second byte as well. *)
Example C17_long_output_second_ex :
  let v := {| s_version := 2; s_ins := s_ins ex_tx; s_outs := [{| so_value := 7; so_script := repeat 106 257 |}]; s_lock := 0 |} in
  let part := firstn (length (before_witness v) - 258) (before_witness v) in
  unlucky 257 258 /\ len (before_witness v) - len part = 258 /\
  match tx_parse tx_new part with Ok (t', _, _) => t_status t' = FAILED | UB => False end.
Proof. vm_compute. repeat split; discriminate. Qed.
(** All other cuts work: any cuts in front of the witnesses that are not unlucky
    ones inside the length of the last output's script, and any cuts inside the
    lock time, with one piece that holds the witnesses and at least the byte
    before them. *)
Theorem C17_tx_segwit_chunks_partial : forall t v before mid after, t_status t = DONE -> tx_ok v -> Forall wit_ok (s_ins v) ->
  1 <= len (s_ins v) < 253 -> len (s_outs v) < 253 -> has_witness v = true ->
  (forall os o a b, s_outs v = os ++ [o] -> before = a ++ b ->
     ~ unlucky (len (so_script o)) (len (before_witness v) - len (concat a))) ->
  Forall (fun c => c <> [] /\ bytes_ok c) (before ++ mid :: after) -> concat (before ++ mid :: after) = wire_tx v ->
  len (concat before) < len (before_witness v) -> len (concat after) <= 4 ->
  exists t', feed tx_parse t_status t (before ++ mid :: after) = Ok (t', len (wire_tx v), []) /\ t_status t' = DONE /\ tx_holds t' v.
Proof. exact segwit_chunks. Qed.
Print Assumptions C17_tx_segwit_chunks_partial.
Example C17_tx_segwit_ex :
  let w := wire_tx ex_tx in let k := (length (before_witness ex_tx) - 1)%nat in
  let before := map (fun b => [b]) (firstn k w) in
  let mid := firstn (length w - 3 - k) (skipn k w) in
  let after := map (fun b => [b]) (skipn (length w - 3) w) in
  concat (before ++ mid :: after) = w /\ length after = 3%nat /\
  match feed tx_parse t_status tx_new (before ++ mid :: after) with
  | Ok (t', n, r) => t_status t' = DONE /\ n = len w /\ r = [] /\ serialize (tx_to_stream t') (length w) 0 = Ok (len w, w)
  | UB => False
  end.
Proof. vm_compute. repeat split. Qed.
(** Scripts may be long, and the pieces may end inside their lengths: the last
    one has 300 bytes, and only the cut after the first byte of its length is unlucky. *)
Example C17_unlucky_ex : forall left, unlucky 300 left -> left = 302.
Proof.
  intros left [K M]. change (len (compact_size 300)) with 3 in *.
  assert (3 + 300 - left = 1 \/ 3 + 300 - left = 2) as [Q|Q] by lia; [lia|]. rewrite Q in M. discriminate M.
Qed.
Example C17_tx_long_scripts_ex :
  let v := {| s_version := 2; s_ins := s_ins ex_tx; s_outs := [{| so_value := 7; so_script := repeat 106 300 |}; {| so_value := 1; so_script := repeat 107 300 |}]; s_lock := 0 |} in
  let w := wire_tx v in let n := length (before_witness v) in
  let before := map (fun b => [b]) (firstn (n - 303) w) ++ [firstn 2 (skipn (n - 303) w); firstn 300 (skipn (n - 301) w)] in
  (forall os o a b, s_outs v = os ++ [o] -> before = a ++ b -> ~ unlucky (len (so_script o)) (len (before_witness v) - len (concat a))) /\
  match feed tx_parse t_status tx_new (before ++ [skipn (n - 1) w]) with
  | Ok (t', n, r) => t_status t' = DONE /\ n = len w /\ r = [] /\ serialize (tx_to_stream t') (length w) 0 = Ok (len w, w)
  | UB => False
  end.
Proof.
  cbv zeta. split; [|vm_compute; repeat split]. set (v := Build_s_tx _ _ _ _). intros os o a b Q E C.
  assert (EO : o = {| so_value := 1; so_script := repeat 107 300 |}).
  { unfold v in Q. cbn [s_outs] in Q. change (?x :: ?y :: []) with ([x] ++ [y]) in Q. apply app_inj_tail in Q as [_ <-]. reflexivity. }
  rewrite EO in C. cbn [so_script] in C. change (len (repeat 107 300)) with 300 in C. apply C17_unlucky_ex in C.
  set (n := length (before_witness v)) in *. assert (N : len (before_witness v) = Z.of_nat n) by reflexivity.
  set (w := wire_tx v) in *. assert (LW : (n <= length w)%nat) by (apply Nat.leb_le; vm_compute; reflexivity).
  assert (N3 : (303 <= n)%nat) by (apply Nat.leb_le; vm_compute; reflexivity). rewrite N in C. clear N. clearbody w n. clear v Q EO o os.
  assert (L1 : forall l : list Z, len (concat (map (fun b => [b]) l)) = len l).
  { induction l as [|x l IH]; [reflexivity|]. cbn [map concat]. rewrite len_app, IH, !len_cons, len_nil. lia. }
  assert (LF : len (firstn (n - 303) w) = Z.of_nat n - 303) by (unfold len; rewrite firstn_length; lia).
  assert (L3 : len (firstn 2 (skipn (n - 303) w)) = 2) by (unfold len; rewrite firstn_length, skipn_length; lia).
  set (x := firstn 2 _) in *. set (y := firstn 300 _) in *. set (l := firstn (n - 303) w) in *. clearbody x y l.
  destruct (Nat.le_gt_cases (length a) (length l)) as [G|G].
  - assert (A : a = map (fun b => [b]) (firstn (length a) l)).
    { apply (f_equal (firstn (length a))) in E. rewrite firstn_app, firstn_app, map_length, firstn_all, Nat.sub_diag in E.
      replace (length a - length l)%nat with 0%nat in E by lia. cbn [firstn] in E. rewrite !app_nil_r, firstn_map in E. auto. }
    rewrite A, L1 in C. unfold len in C, LF. rewrite firstn_length in C. lia.
  - destruct (split_left (map (fun b => [b]) l) [x; y] a b E) as (r & -> & E2); [unfold len; rewrite map_length; lia|].
    destruct r as [|r1 r]; [rewrite app_nil_r, map_length in G; lia|]. assert (r1 = x) by (cbn [app] in E2; congruence). subst r1.
    rewrite concat_app, len_app, L1 in C. cbn [concat] in C. rewrite len_app in C. pose proof (len_nonneg _ (concat r)). lia.
Qed.
(** The pieces may also end inside the last witness, but not at an unlucky place
    inside the length of one of its elements. *)
Theorem C17_tx_last_witness_partial : forall t v l i before mid after, t_status t = DONE -> tx_ok v -> Forall wit_ok (s_ins v) ->
  1 <= len (s_ins v) < 253 -> len (s_outs v) < 253 -> has_witness v = true ->
  (forall os o a b, s_outs v = os ++ [o] -> before = a ++ b ->
     ~ unlucky (len (so_script o)) (len (before_witness v) - len (concat a))) ->
  Forall (fun c => c <> [] /\ bytes_ok c) (before ++ mid :: after) -> concat (before ++ mid :: after) = wire_tx v ->
  len (concat before) < len (before_witness v) -> s_ins v = l ++ [i] ->
  len (concat after) < len (wire_witness (si_wit i)) + 4 ->
  (forall a b, after = a ++ b -> ~ unlucky_at (si_wit i) (len (wire_witness (si_wit i)) + 4 - len (concat b))) ->
  exists t', feed tx_parse t_status t (before ++ mid :: after) = Ok (t', len (wire_tx v), []) /\ t_status t' = DONE /\ tx_holds t' v.
Proof. exact last_witness_chunks. Qed.
Print Assumptions C17_tx_last_witness_partial.
Lemma ex_tx_inside : forall k, unlucky_at [[48; 1]; repeat 5 300] k -> k = 5 \/ k = 6.
Proof.
  intros k (els1 & e & els2 & EE & Q & _). change (len (compact_size (len [[48; 1]; repeat 5 300]))) with 1 in Q.
  destruct els1 as [|x1 [|x2 els1]]; cbn [app] in EE.
  - assert (e = [48; 1]) by congruence. subst e. change (len (compact_size (len [48; 1]))) with 1 in Q. lia.
  - assert (x1 = [48; 1]) by congruence. assert (e = repeat 5 300) by congruence. subst. change (len (compact_size (len (repeat 5 300)))) with 3 in Q.
    change (len (flat_map wire_bytes [[48; 1]])) with 3 in Q. lia.
  - destruct els1; discriminate.
Qed.
Example C17_tx_last_witness_ex :
  let w := wire_tx ex_tx in let k := (length (before_witness ex_tx) - 1)%nat in
  let before := map (fun b => [b]) (firstn k w) in
  let mid := firstn 3 (skipn k w) in
  let after := [[2; 48]; [1]; [253; 44; 1]; [5]; skipn (length w - 303) w] in
  (forall a b, after = a ++ b -> ~ unlucky_at [[48; 1]; repeat 5 300] (len (wire_witness [[48; 1]; repeat 5 300]) + 4 - len (concat b))) /\
  concat (before ++ mid :: after) = w /\
  match feed tx_parse t_status tx_new (before ++ mid :: after) with
  | Ok (t', n, r) => t_status t' = DONE /\ n = len w /\ r = [] /\ serialize (tx_to_stream t') (length w) 0 = Ok (len w, w)
  | UB => False
  end.
Proof.
  cbv zeta. split; [|vm_compute; repeat split].
  intros a b E Q. apply ex_tx_inside in Q. change (len (wire_witness [[48; 1]; repeat 5 300])) with 307 in Q.
  assert (X : len (concat a) + len (concat b) = 310).
  { rewrite <- len_app, <- concat_app, <- E. vm_compute. reflexivity. }
  assert (L : len (concat a) = 4 \/ len (concat a) = 5) by lia. clear X Q. set (r := skipn _ _) in E. assert (LR : len r = 303) by (vm_compute; reflexivity). clearbody r.
  destruct a as [|a1 [|a2 [|a3 [|a4 [|a5 a]]]]]; cbn [app] in E; try (assert (a1 = [2; 48]) by congruence); try (assert (a2 = [1]) by congruence);
    try (assert (a3 = [253; 44; 1]) by congruence); try (assert (a4 = [5]) by congruence); try (assert (a5 = r) by congruence); subst; cbn [concat] in L;
    rewrite ?app_nil_r, ?len_app, ?LR, ?len_cons, ?len_nil in L; try lia.
  pose proof (len_nonneg _ (concat a)). lia.
Qed.
(** Cut inside a witness that is not the last one, the transaction fails. *)
Theorem C17_inner_witness_refuted : forall t v l1 i j l2 c more, t_status t = DONE -> tx_ok v -> Forall wit_ok (s_ins v) ->
  s_ins v = l1 ++ i :: j :: l2 -> len (s_ins v) < 253 -> len (s_outs v) < 253 ->
  wire_witness (si_wit i) = c ++ more -> c <> [] -> more <> [] -> ~ unlucky_at (si_wit i) (len c) ->
  let part := before_witness v ++ flat_map (fun i => wire_witness (si_wit i)) l1 ++ c in bytes_ok part ->
  exists t', tx_parse t part = Ok (t', len part, []) /\ t_status t' = FAILED.
Proof. exact wit_inside_cut. Qed.
Print Assumptions C17_inner_witness_refuted.
Example C17_inner_witness_ex :
  let v := {| s_version := 2; s_ins := [ {| si_prev := repeat 17 32; si_vout := 1; si_sig := []; si_seq := 0; si_wit := [[7; 8]; [9]] |};
                                         {| si_prev := repeat 34 32; si_vout := 7; si_sig := []; si_seq := 1; si_wit := [[48; 1]] |} ];
              s_outs := [ {| so_value := 1; so_script := [] |} ]; s_lock := 5 |} in
  let part := before_witness v ++ [2; 2; 7] in
  firstn (length part) (wire_tx v) = part /\ wire_witness [[7; 8]; [9]] = [2; 2; 7] ++ [8; 1; 9] /\ ~ unlucky_at [[7; 8]; [9]] 3 /\
  match tx_parse tx_new part with Ok (t', _, _) => t_status t' = FAILED | UB => False end /\
  match tx_parse tx_new (wire_tx v) with Ok (t', _, _) => t_status t' = DONE | UB => False end.
Proof.
  cbv zeta. split; [reflexivity|]. split; [reflexivity|]. split; [|vm_compute; split; reflexivity].
  intros (els1 & e & els2 & EE & Q & _). change (len (compact_size (len [[7; 8]; [9]]))) with 1 in Q.
  destruct els1 as [|x1 [|x2 els1]]; cbn [app] in EE.
  - assert (e = [7; 8]) by congruence. subst e. change (len (compact_size (len [7; 8]))) with 1 in Q. lia.
  - assert (x1 = [7; 8]) by congruence. assert (e = [9]) by congruence. subst. change (len (compact_size (len [9]))) with 1 in Q. lia.
  - destruct els1; discriminate.
Qed.
(** Every witness cut at an unlucky place inside the length of its last item is
    taken for complete without the item. The first byte of the length of an item of
    253 bytes or more always ends at such a place. *)
Theorem C17_witness_cut_refuted : forall w els e part more, wi_status w = DONE -> wi_len w = len (wi_arr w) -> len (els ++ [e]) < 253 ->
  Forall bytes_ok els -> len (flat_map wire_bytes els) < 2^31 -> len e < 2^31 ->
  wire_witness (els ++ [e]) = part ++ more -> unlucky (len e) (len more) ->
  exists w', witness_parse w part = Ok (w', len part, []) /\ feed witness_parse wi_status w [part; more] = Ok (w', len part, more) /\
    wi_status w' = DONE /\ wi_arr w' = flat_map wire_bytes els.
Proof. exact witness_long_cut. Qed.
Print Assumptions C17_witness_cut_refuted.
Example C17_witness_cut_ex :
  let els := [repeat 7 300] in
  let w := wire_witness els in
  (exists w', witness_parse witness_new w = Ok (w', len w, []) /\ wi_status w' = DONE /\ wi_arr w' = flat_map wire_bytes els) /\
  exists w', feed witness_parse wi_status witness_new [firstn 2 w; skipn 2 w] = Ok (w', 2, skipn 2 w) /\ wi_status w' = DONE /\ wi_arr w' = [].
Proof. exact witness_cut. Qed.
(** A transaction cut there is read with success as another one: up to three of
    the bytes that follow become its lock time, and the rest is left. *)
Theorem C17_tx_long_item_refuted : forall t v l i els e part more, t_status t = DONE -> tx_ok v -> Forall wit_ok (s_ins v) ->
  len (s_ins v) < 253 -> len (s_outs v) < 253 -> has_witness v = true -> s_ins v = l ++ [i] -> si_wit i = els ++ [e] ->
  wire_tx v = part ++ more -> bytes_ok (wire_tx v) -> unlucky (len e) (len more - 4) ->
  let n := len more - len (wire_bytes e) in
  exists t', feed tx_parse t_status t [part; more] = Ok (t', len part + n, skipn (Z.to_nat n) more) /\ t_status t' = DONE /\ ~ tx_holds t' v.
Proof. exact tx_long_cut. Qed.
Print Assumptions C17_tx_long_item_refuted.
Example C17_tx_long_item_ex :
  let w := wire_tx ex_tx in let k := (length w - 306)%nat in
  si_wit (last (s_ins ex_tx) (hd {| si_prev := []; si_vout := 0; si_sig := []; si_seq := 0; si_wit := [] |} (s_ins ex_tx))) = [[48; 1]] ++ [repeat 5 300] /\
  len (skipn k w) = len (wire_bytes (repeat 5 300)) - 1 + 4 /\ unlucky 300 (len (skipn k w) - 4) /\
  match feed tx_parse t_status tx_new [firstn k w; skipn k w] with
  | Ok (t', n, r) => t_status t' = DONE /\ n = len w - 303 /\ t_lock t' = (44 + 256 * 1 + 65536 * 5) * 256 /\ s_lock ex_tx = 600000 /\ r = skipn (length w - 303) w
  | UB => False
  end.
Proof. vm_compute. repeat split; discriminate. Qed.
(** The true part: pieces none of which ends at an unlucky place. Witnesses with
    elements under 253 bytes have no such places and can be cut anywhere.
    Missing: what happens at an unlucky place before the last element. *)
Theorem C17_witness_chunks_partial : forall w els rest c chunks, wi_status w = DONE -> wi_len w = len (wi_arr w) -> len els < 253 -> Forall bytes_ok els ->
  len (flat_map wire_bytes els) < 2^31 -> c <> [] -> concat (c :: chunks) = wire_witness els ++ rest ->
  (forall a b, c :: chunks = a ++ b -> b <> [] -> ~ unlucky_at els (len (concat a))) ->
  exists w', feed witness_parse wi_status w (c :: chunks) = Ok (w', len (wire_witness els), rest) /\
    witness_parse w (wire_witness els ++ rest) = Ok (w', len (wire_witness els), rest) /\
    wi_status w' = DONE /\ wi_num w' = len els /\ wi_arr w' = flat_map wire_bytes els.
Proof. exact witness_pieces_same. Qed.
Print Assumptions C17_witness_chunks_partial.
Example C17_witness_chunks_ex :
  let els := [[5; 6]; []; repeat 9 253] in
  let w := wire_witness els in
  (forall a b, [[3]; [2; 5]; [6; 0; 253; 253]; [0; 9]; skipn 9 w ++ [1]] = a ++ b -> b <> [] -> ~ unlucky_at els (len (concat a))) /\
  exists w', feed witness_parse wi_status witness_new [[3]; [2; 5]; [6; 0; 253; 253]; [0; 9]; skipn 9 w ++ [1]] = Ok (w', 261, [1]) /\ wi_status w' = DONE.
Proof.
  intros els w. assert (H : forall a b, [[3]; [2; 5]; [6; 0; 253; 253]; [0; 9]; skipn 9 w ++ [1]] = a ++ b -> b <> [] -> ~ unlucky_at els (len (concat a))).
  { intros a b E NB (els1 & e & els2 & EE & Q & M). cbv zeta in Q, M.
    assert (A : len (concat a) = 0 \/ len (concat a) = 1 \/ len (concat a) = 3 \/ len (concat a) = 7 \/ len (concat a) = 9).
    { destruct a as [|a1 [|a2 [|a3 [|a4 [|a5 [|a6 a]]]]]]; cbn [app] in E.
      - auto.
      - right; left. assert (a1 = [3]) by congruence. subst. reflexivity.
      - right; right; left. assert (a1 = [3]) by congruence. assert (a2 = [2; 5]) by congruence. subst. reflexivity.
      - right; right; right; left. assert (a1 = [3]) by congruence. assert (a2 = [2; 5]) by congruence. assert (a3 = [6; 0; 253; 253]) by congruence. subst. reflexivity.
      - right; right; right; right. assert (a1 = [3]) by congruence. assert (a2 = [2; 5]) by congruence. assert (a3 = [6; 0; 253; 253]) by congruence. assert (a4 = [0; 9]) by congruence. subst. reflexivity.
      - assert (b = []) by congruence. congruence.
      - discriminate. }
    clear E. change (len (compact_size (len els))) with 1 in Q, M.
    destruct els1 as [|x1 [|x2 [|x3 els1]]]; unfold els in EE; cbn [app] in EE.
    - assert (e = [5; 6]) by congruence. subst e. change (len (compact_size (len [5; 6]))) with 1 in Q. lia.
    - assert (x1 = [5; 6]) by congruence. assert (e = []) by congruence. subst. change (len (compact_size (len (@nil Z)))) with 1 in Q. lia.
    - assert (x1 = [5; 6]) by congruence. assert (x2 = []) by congruence. assert (e = repeat 9 253) by congruence. subst. change (len (compact_size (len (repeat 9 253)))) with 3 in Q.
      change (len (flat_map wire_bytes [[5; 6]; []])) with 4 in Q, M. assert (K : len (concat a) = 7) by lia. rewrite K in M. vm_compute in M. discriminate.
    - destruct els1; discriminate. }
  split; [exact H|]. destruct (C17_witness_chunks_partial witness_new els [1] [3] [[2; 5]; [6; 0; 253; 253]; [0; 9]; skipn 9 w ++ [1]]) as (w' & F & _ & S & _); auto; try reflexivity.
  - repeat (apply Forall_cons; [apply bytes_ok_bool; reflexivity|]). constructor.
  - discriminate.
  - exists w'. split; [exact F|exact S].
Qed.

(** * C18 *)
Theorem C18_tx_round_trip : forall t v t0 rest, tx_holds t v -> small_tx v -> t_status t0 = DONE ->
  serialize (tx_to_stream t) (Z.to_nat (tx_length t)) 0 = Ok (tx_length t, wire_tx v) /\
  exists t', tx_parse t0 (wire_tx v ++ rest) = Ok (t', tx_length t, rest) /\ t_status t' = DONE /\ tx_holds t' v.
Proof. exact tx_round_trip. Qed.
Print Assumptions C18_tx_round_trip.
(** Every wire form of that shape parses, not only those an object gave. *)
Theorem C18_tx_parses : forall t v rest, t_status t = DONE -> tx_ok v -> Forall wit_ok (s_ins v) ->
  1 <= len (s_ins v) < 253 -> len (s_outs v) < 253 ->
  exists t', tx_parse t (wire_tx v ++ rest) = Ok (t', len (wire_tx v), rest) /\ t_status t' = DONE /\ tx_holds t' v.
Proof. exact tx_round. Qed.
Print Assumptions C18_tx_parses.
Theorem C18_witness_round_trip : forall w els rest, wi_status w = DONE -> (exists old, witness_holds w old) ->
  len els < 253 -> Forall bytes_ok els -> len (flat_map wire_bytes els) < 2^31 ->
  exists w', witness_parse w (wire_witness els ++ rest) = Ok (w', len (wire_witness els), rest) /\
    wi_status w' = DONE /\ witness_holds w' els.
Proof. exact witness_round. Qed.
Print Assumptions C18_witness_round_trip.

(** * C19 *)
(** Whatever the transaction, 253 inputs or outputs are too many for serialize(). *)
Theorem C19_serialize_refuted : forall t v n, tx_holds t v -> 253 <= len (s_ins v) \/ 253 <= len (s_outs v) ->
  len (wire_segwit v) < 2^62 -> len (wire_tx v) <= Z.of_nat n -> serialize (tx_to_stream t) n 0 = UB.
Proof. exact tx_too_many_serialize. Qed.
Print Assumptions C19_serialize_refuted.
(** No input whatsoever parses to more than 255 inputs or outputs, ... *)
Theorem C19_parse_bound : forall t st t' n r, t_status t = DONE -> bytes_ok st -> tx_parse t st = Ok (t', n, r) ->
  (length (t_ins t') <= 255)%nat /\ (length (t_outs t') <= 255)%nat.
Proof. exact tx_few. Qed.
Print Assumptions C19_parse_bound.
(** ... so a transaction with more never parses back, ... *)
Theorem C19_parse_refuted : forall t v rest t' n r, t_status t = DONE -> bytes_ok (wire_tx v ++ rest) ->
  256 <= len (s_ins v) \/ 256 <= len (s_outs v) -> tx_parse t (wire_tx v ++ rest) = Ok (t', n, r) -> ~ tx_holds t' v.
Proof. exact tx_many_lost. Qed.
Print Assumptions C19_parse_refuted.
(** ... and neither does a witness with 253 items or more. *)
Theorem C19_witness_refuted : forall w els rest, wi_status w = DONE -> 253 <= len els < 2^64 ->
  exists w' n r, witness_parse w (wire_witness els ++ rest) = Ok (w', n, r) /\ wi_status w' = FAILED.
Proof. exact long_witness_fails. Qed.
Print Assumptions C19_witness_refuted.
Definition ex_in : s_txin := {| si_prev := repeat 3 32; si_vout := 0; si_sig := []; si_seq := 0; si_wit := [] |}.
Definition ex_many : s_tx := {| s_version := 1; s_ins := repeat ex_in 253; s_outs := []; s_lock := 0 |}.
(** 253 inputs are even accepted, with different contents: every previous
    output index here is 0, and is read as 771. *)
Theorem C19_parse_253_refuted : exists t, tx_parse tx_new (wire_tx ex_many) = Ok (t, 10383, [0; 0]) /\ t_status t = DONE /\ map ti_index (t_ins t) = repeat 771 253.
Proof. vm_compute. eexists. repeat split. Qed.
Print Assumptions C19_parse_253_refuted.

(** * C20 *)
Theorem C20_txid : forall dsha t v, tx_holds t v -> countable v -> tx_txid dsha t = Ok (rev (dsha (wire_legacy v))).
Proof. exact txid_ok. Qed.
Print Assumptions C20_txid.
Theorem C20_txid_ignores_witness : forall dsha t t' v v', tx_holds t v -> tx_holds t' v' -> countable v ->
  same_but_witness v v' -> tx_txid dsha t = tx_txid dsha t'.
Proof. exact txid_witness. Qed.
Print Assumptions C20_txid_ignores_witness.
Theorem C20_txid_of_serialized : forall dsha t v, tx_holds t v -> small_tx v -> has_witness v = false ->
  exists bytes, serialize (tx_to_stream t) (Z.to_nat (tx_length t)) 0 = Ok (tx_length t, bytes) /\ tx_txid dsha t = Ok (rev (dsha bytes)).
Proof. exact txid_serialized. Qed.
Print Assumptions C20_txid_of_serialized.
Example C20_ex : tx_txid (fun m => m) ex_obj = Ok (rev (wire_legacy ex_tx)) /\ wire_legacy ex_tx <> wire_tx ex_tx.
Proof. split; [vm_compute; reflexivity|]. apply not_eq_sym, segwit_not_legacy. Qed.

(** * C21 *)
Theorem C21_sighash : forall dsha t v idx s code ty, tx_holds t v -> len (s_ins v) < 2^64 -> len (s_outs v) < 2^64 ->
  (idx < 256)%nat -> script_holds s code -> signs_all ty ->
  tx_sigHash dsha t (Z.of_nat idx) s ty = Ok (dsha (legacy_preimage v idx code ty)).
Proof. exact sigHash_ok. Qed.
Print Assumptions C21_sighash.
(** Equal hashes mean equal contents, or the two preimages are a collision. *)
Theorem C21_sighash_commits : forall dsha t t' a b idx idx' s s' code code' ty ty' h,
  tx_holds t a -> tx_holds t' b -> countable a -> countable b -> (idx < 256)%nat -> (idx' < 256)%nat ->
  (idx < length (s_ins a))%nat -> (idx' < length (s_ins b))%nat -> script_holds s code -> script_holds s' code' ->
  signs_all ty -> signs_all ty' -> 0 <= ty < 2^32 -> 0 <= ty' < 2^32 ->
  tx_sigHash dsha t (Z.of_nat idx) s ty = Ok h -> tx_sigHash dsha t' (Z.of_nat idx') s' ty' = Ok h ->
  collides dsha (legacy_preimage a idx code ty) (legacy_preimage b idx' code' ty') \/
  (s_version a = s_version b /\ map op_key (s_ins a) = map op_key (s_ins b) /\ s_outs a = s_outs b /\ s_lock a = s_lock b /\
   code = code' /\ ty = ty' /\ (code <> [] -> idx = idx')).
Proof. exact legacy_sighash_commits. Qed.
Print Assumptions C21_sighash_commits.
Example C21_ex : tx_sigHash (fun m => m) ex_obj 1 (script_of [81; 82]) 1 = Ok (legacy_preimage ex_tx 1 [81; 82] 1) /\ signs_all 1.
Proof. vm_compute. auto. Qed.

(** * C22 *)
Theorem C22_sighash_segwit : forall dsha t v idx i s code amount ty, tx_holds t v -> (idx < 256)%nat ->
  nth_error (s_ins v) idx = Some i -> script_holds s code -> signs_all ty ->
  tx_sigHashSegwit dsha t (Z.of_nat idx) s amount ty = Ok (dsha (bip143_preimage dsha v idx i code amount ty)).
Proof. exact sigHashSegwit_ok. Qed.
Print Assumptions C22_sighash_segwit.
Theorem C22_preimage_commits : forall dsha a b idx idx' i j code code' amt amt' ty ty',
  (forall m, length (dsha m) = 32%nat) -> tx_ok a -> tx_ok b -> In i (s_ins a) -> In j (s_ins b) ->
  signs_all ty -> signs_all ty' -> 0 <= ty < 2^32 -> 0 <= ty' < 2^32 -> 0 <= amt < 2^64 -> 0 <= amt' < 2^64 ->
  len code < 2^31 -> len code' < 2^31 ->
  bip143_preimage dsha a idx i code amt ty = bip143_preimage dsha b idx' j code' amt' ty' ->
  collides dsha (flat_map outpoint (s_ins a)) (flat_map outpoint (s_ins b)) \/
  collides dsha (flat_map (fun i => le_bytes 4 (si_seq i)) (s_ins a)) (flat_map (fun i => le_bytes 4 (si_seq i)) (s_ins b)) \/
  collides dsha (flat_map wire_out (s_outs a)) (flat_map wire_out (s_outs b)) \/
  (s_version a = s_version b /\ map op_key (s_ins a) = map op_key (s_ins b) /\ s_outs a = s_outs b /\ s_lock a = s_lock b /\
   op_key i = op_key j /\ code = code' /\ amt = amt' /\ ty = ty').
Proof. exact bip143_commits. Qed.
Print Assumptions C22_preimage_commits.
Definition toy (m : list Z) : list Z := firstn 32 (m ++ repeat 0 32).
Example C22_ex : forall i, nth_error (s_ins ex_tx) 1 = Some i ->
  tx_sigHashSegwit toy ex_obj 1 (script_of [81; 82]) 700 1 = Ok (toy (bip143_preimage toy ex_tx 1 i [81; 82] 700 1)).
Proof. intros i E. injection E as <-. vm_compute. reflexivity. Qed.

(** * C23 *)
(** The type only enters as the last four bytes: everything else is hashed as
    for SIGHASH_ALL (type 1) ... *)
Theorem C23_legacy_like_all : forall dsha t v idx s code ty, tx_holds t v -> countable v -> (idx < 256)%nat -> script_holds s code ->
  tx_sigHash dsha t (Z.of_nat idx) s ty = Ok (dsha (legacy_body v idx code 1 ++ le_bytes 4 ty)).
Proof. exact sighash_like_all. Qed.
Print Assumptions C23_legacy_like_all.
Theorem C23_segwit_like_all : forall dsha t v idx i s code amount ty, tx_holds t v -> (idx < 256)%nat ->
  nth_error (s_ins v) idx = Some i -> script_holds s code ->
  tx_sigHashSegwit dsha t (Z.of_nat idx) s amount ty = Ok (dsha (bip143_body dsha v idx i code amount 1 ++ le_bytes 4 ty)).
Proof. exact sighash_segwit_like_all. Qed.
Print Assumptions C23_segwit_like_all.
(** ... which is not what the protocol prescribes for SIGHASH_NONE (2) and SIGHASH_SINGLE (3). *)
Theorem C23_none_refuted : forall v idx code, tx_ok v -> len (s_ins v) < 2^64 -> len (s_outs v) < 2^64 -> bytes_ok code -> len code < 2^31 ->
  s_outs v <> [] -> legacy_body v idx code 1 ++ le_bytes 4 2 <> legacy_preimage v idx code 2.
Proof. exact none_differs. Qed.
Print Assumptions C23_none_refuted.
Theorem C23_single_refuted : forall v idx code, tx_ok v -> len (s_ins v) < 2^64 -> len (s_outs v) < 2^64 -> bytes_ok code -> len code < 2^31 ->
  (S idx < length (s_outs v))%nat -> legacy_body v idx code 1 ++ le_bytes 4 3 <> legacy_preimage v idx code 3.
Proof. exact single_differs. Qed.
Print Assumptions C23_single_refuted.
Theorem C23_segwit_none_refuted : forall dsha v idx i code amount, (forall m, length (dsha m) = 32%nat) ->
  dsha (flat_map wire_out (s_outs v)) <> repeat 0 32 ->
  bip143_body dsha v idx i code amount 1 ++ le_bytes 4 2 <> bip143_preimage dsha v idx i code amount 2.
Proof. exact none143_differs. Qed.
Print Assumptions C23_segwit_none_refuted.
(** The type byte behind the signature is 1 whatever type was asked for. *)
Theorem C23_segwit_type_byte_refuted : forall dsha hash160 sha256 sec sign_der,
  (forall m, length (hash160 m) = 20%nat /\ bytes_ok (hash160 m)) -> (forall m, length (sha256 m) = 32%nat /\ bytes_ok (sha256 m)) ->
  bytes_ok sec /\ len sec <= 65 -> (forall h, bytes_ok (sign_der h) /\ len (sign_der h) <= 72) ->
  forall t v idx i r code amount ty sh wp, tx_holds t v -> (idx < 256)%nat -> nth_error (s_ins v) idx = Some i ->
  script_holds r code -> len code <= 9000 -> (wp = true <-> exists h, length h = 20%nat /\ code = 0 :: 20 :: h) ->
  exists t' der,
    der = sign_der (dsha (bip143_body dsha v idx i (if wp then key_code (hash160 sec) else code) amount 1 ++ le_bytes 4 sh)) /\
    tx_signSegwitInput dsha hash160 sha256 sec sign_der t (Z.of_nat idx) r amount ty sh = Ok (t', der) /\
    tx_holds t' (with_in v idx (signed_in i
      (expected_redeem (script_type_eqb ty P2SH_P2WPKH || script_type_eqb ty P2SH_P2WSH) wp sha256 code)
      (expected_wit wp sec der code))).
Proof. exact sign_segwit_any. Qed.
Print Assumptions C23_segwit_type_byte_refuted.
Theorem C23_legacy_type_byte_refuted : forall dsha sec sign_der,
  bytes_ok sec /\ len sec <= 65 -> (forall h, bytes_ok (sign_der h) /\ len (sign_der h) <= 72) ->
  forall t v idx i r code sh pk, tx_holds t v -> len (s_ins v) < 2^64 -> len (s_outs v) < 2^64 ->
  (idx < 256)%nat -> nth_error (s_ins v) idx = Some i -> script_holds r code -> len code <= 9000 ->
  (pk = true <-> exists h, length h = 20%nat /\ code = key_code h) ->
  exists t' der,
    der = sign_der (dsha (legacy_body v idx code 1 ++ le_bytes 4 sh)) /\
    tx_signInput dsha sec sign_der t (Z.of_nat idx) r sh = Ok (t', der) /\
    tx_holds t' (with_in v idx (signed_in i (expected_sig pk sec der code) (si_wit i))).
Proof. exact sign_legacy_any. Qed.
Print Assumptions C23_legacy_type_byte_refuted.
Example C23_ex : exists t' der, tx_signInput toy (repeat 2 33) (fun h => firstn 8 h) ex_obj 1 (script_of (key_code (repeat 9 20))) 2 = Ok (t', der) /\
  map (fun i => sc_arr (ti_script i)) (t_ins t') = [[1; 2; 3]; [9] ++ der ++ [1; 33] ++ repeat 2 33].
Proof. vm_compute. eexists _, _. split; reflexivity. Qed.

(** * C58: witnesses *)
(** Two bytes, the second announcing a longer length, pass for a witness of one
    item; serializing the result does not give those bytes back. *)
Theorem C58_witness_refuted : exists w, witness_parse witness_new [1; 253] = Ok (w, 2, []) /\ wi_status w = DONE /\
  wi_num w = 1 /\ serialize (witness_to_stream w) 2 0 = Ok (1, [1; 0]).
Proof. vm_compute. eexists. repeat split. Qed.
Print Assumptions C58_witness_refuted.

(** * C59 *)
Theorem C59_wtxid : forall dsha t v, tx_holds t v -> countable v -> has_witness v = true ->
  tx_wtxid dsha t = Ok (rev (dsha (wire_tx v))).
Proof. exact wtxid_ok. Qed.
Print Assumptions C59_wtxid.
(** Without witnesses, what is hashed is never the serialization. *)
Theorem C59_no_witness_refuted : forall t v, tx_holds t v -> countable v -> has_witness v = false ->
  exists bytes, (forall dsha, tx_wtxid dsha t = Ok (rev (dsha bytes))) /\ bytes <> wire_tx v.
Proof. exact wtxid_wrong. Qed.
Print Assumptions C59_no_witness_refuted.
Example C59_ex : tx_wtxid (fun m => m) ex_obj = Ok (rev (wire_tx ex_tx)).
Proof. vm_compute. reflexivity. Qed.

(** * C60 *)
Theorem C60_sign_segwit : forall dsha hash160 sha256 sec sign_der,
  (forall m, length (hash160 m) = 20%nat /\ bytes_ok (hash160 m)) -> (forall m, length (sha256 m) = 32%nat /\ bytes_ok (sha256 m)) ->
  bytes_ok sec /\ len sec <= 65 -> (forall h, bytes_ok (sign_der h) /\ len (sign_der h) <= 72) ->
  forall t v idx i r code amount ty wp, tx_holds t v -> (idx < 256)%nat -> nth_error (s_ins v) idx = Some i ->
  script_holds r code -> len code <= 9000 -> (wp = true <-> exists h, length h = 20%nat /\ code = 0 :: 20 :: h) ->
  exists t' der,
    der = sign_der (dsha (bip143_preimage dsha v idx i (if wp then key_code (hash160 sec) else code) amount 1)) /\
    tx_signSegwitInput dsha hash160 sha256 sec sign_der t (Z.of_nat idx) r amount ty 1 = Ok (t', der) /\
    tx_holds t' (with_in v idx (signed_in i
      (expected_redeem (script_type_eqb ty P2SH_P2WPKH || script_type_eqb ty P2SH_P2WSH) wp sha256 code)
      (expected_wit wp sec der code))).
Proof. exact sign_segwit_ok. Qed.
Print Assumptions C60_sign_segwit.
Theorem C60_sign_legacy : forall dsha sec sign_der,
  bytes_ok sec /\ len sec <= 65 -> (forall h, bytes_ok (sign_der h) /\ len (sign_der h) <= 72) ->
  forall t v idx i r code pk, tx_holds t v -> len (s_ins v) < 2^64 -> len (s_outs v) < 2^64 ->
  (idx < 256)%nat -> nth_error (s_ins v) idx = Some i -> script_holds r code -> len code <= 9000 ->
  (pk = true <-> exists h, length h = 20%nat /\ code = key_code h) ->
  exists t' der,
    der = sign_der (dsha (legacy_preimage v idx code 1)) /\
    tx_signInput dsha sec sign_der t (Z.of_nat idx) r 1 = Ok (t', der) /\
    tx_holds t' (with_in v idx (signed_in i (expected_sig pk sec der code) (si_wit i))).
Proof. exact (fun d s g A B t v x i r c => sign_legacy_any d s g A B t v x i r c 1). Qed.
Print Assumptions C60_sign_legacy.
Example C60_ex : exists t' der, tx_signSegwitInput toy (fun m => repeat 6 20) (fun m => repeat 8 32) (repeat 2 33) (fun h => firstn 8 h)
    ex_obj 0 (script_of ([0; 20] ++ repeat 6 20)) 99 P2SH_P2WPKH 1 = Ok (t', der) /\
  map (fun i => (sc_arr (ti_script i), wi_num (ti_wit i))) (t_ins t') = [([22; 0; 20] ++ repeat 6 20, 2); ([], 2)].
Proof. vm_compute. eexists _, _. split; reflexivity. Qed.
