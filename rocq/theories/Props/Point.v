(** C48, C49: public keys on the wire; with it C15, C16 and C36 for them. *)
From Coq Require Import Lia.
From Verif Require Import Base.Bytes Spec.Codecs Spec.Wire Spec.Objects Spec.Point Spec.HD Model.Stream Model.Networks Model.Sign Model.Point Model.HD
  Proof.PointFacts Proof.PointProps Proof.PointChunks Proof.PointHD.
Open Scope Z_scope.

(** The generator, and minus three times it. *)
Definition ex_gx : Z := 0x79be667ef9dcbbac55a06295ce870b07029bfcdb2dce28d959f2815b16f81798.
Definition ex_gy : Z := 0x483ada7726a3c4655da4fbfc0e1108a8fd17b448a68554199c47d08ffb10d4b8.
Definition ex_hx : Z := 0xf9308a019258c31049344f85f89d5229b531c845836f99b08601f113bce036f9.
Definition ex_hy : Z := 0xc77084f09cd217ebf01cc819d5c80ca99aff5666cb3ddce4934602897b4715bd.
Example ex_points : on_curve ex_gx ex_gy /\ on_curve ex_hx ex_hy /\ ex_gy mod 2 = 0 /\ ex_hy mod 2 = 1.
Proof. vm_compute. repeat split; discriminate. Qed.
(** An object that has been created or completely parsed: 64 bytes and no parsing under way. *)
Example ex_ready : pt_ready pt_new.
Proof. repeat split; try reflexivity. apply BytesFacts.bytes_ok_zeros. Qed.

(** * C48 *)
(** Serializing a point of the curve gives its SEC encoding, and parsing that gives the point back,
    whatever the object held, whatever follows and whatever is on the stack. *)
Theorem C48_serialize : forall k x y, pt_xy k = coords x y -> gives_slices (pt_to_stream k) (sec_bytes (pt_comp k) x y).
Proof. exact pt_slices_coords. Qed.
Print Assumptions C48_serialize.
Theorem C48_parse : forall garbage k first c x y rest, pt_ready k -> on_curve x y ->
  pt_parse garbage (k, first) (sec_bytes c x y ++ rest) =
  Ok ((mkPt (coords x y) c DONE (pt_length c), hd 0 (sec_bytes c x y)), pt_length c, rest).
Proof. exact pt_whole. Qed.
Print Assumptions C48_parse.
Example C48_case :
  (let! r := pt_parse (zeros 64) (pt_new, 9) (sec_bytes true ex_hx ex_hy ++ [1; 2]) in
   let '((k, _), n, rest) := r in let! s := pt_sec k 33 in Ok (s, n, rest)) = Ok ((33, sec_bytes true ex_hx ex_hy), 33, [1; 2]).
Proof. rewrite (C48_parse (zeros 64) pt_new 9 true ex_hx ex_hy [1; 2] ex_ready (proj1 (proj2 ex_points))). vm_compute. reflexivity. Qed.

(** Only points of the curve are accepted. Missing from the full statement: a compressed key when the
    array [garbage], which the code does not initialise, starts with the x coordinate of a point. *)
Theorem C48_accepts_partial : forall garbage k first s, pt_ready k -> bytes_ok s -> bytes_ok garbage -> length garbage = 64%nat ->
  (forall y, ~ on_curve (be_val 256 (firstn 32 garbage)) y) \/ nth 0 s 0 = 4 ->
  exists k' first' n rest, pt_parse garbage (k, first) s = Ok ((k', first'), n, rest) /\
   (pt_status k' = DONE <-> exists c x y r, on_curve x y /\ s = sec_bytes c x y ++ r) /\
   (pt_status k' = DONE -> exists x y, on_curve x y /\ pt_xy k' = coords x y /\ s = sec_bytes (pt_comp k') x y ++ rest).
Proof. exact accepts_exact. Qed.
Print Assumptions C48_accepts_partial.
Example C48_accepts_case : pt_ready pt_new /\ nth 0 (4 :: coords ex_gx (ex_gy + 1)) 0 = 4 /\
  (let! r := pt_parse (zeros 64) (pt_new, 0) (4 :: coords ex_gx (ex_gy + 1)) in let '((k, _), _, _) := r in Ok (pt_status k)) = Ok FAILED /\
  (forall y, ~ on_curve (be_val 256 (firstn 32 (be_bytes 32 field_prime ++ zeros 32))) y).
Proof.
  split; [exact ex_ready|]. split; [reflexivity|]. split; [vm_compute; reflexivity|].
  intros y (H & _). vm_compute in H. destruct H. discriminate.
Qed.
(** With the coordinates of some point left over in that array, every compressed key that is not on the
    curve is accepted, and read as that other point. *)
Theorem C48_accepts_refuted : forall k first b xs gx gy, pt_ready k -> b = 2 \/ b = 3 -> bytes_ok xs -> length xs = 32%nat ->
  (forall y, ~ on_curve (be_val 256 xs) y) -> on_curve gx gy ->
  exists n, pt_parse (coords gx gy) (k, first) (b :: xs) = Ok ((mkPt (coords gx gy) true DONE 33, b), n, []).
Proof. exact accepts_garbage. Qed.
Print Assumptions C48_accepts_refuted.
Example C48_accepts_refuted_case : (forall y, ~ on_curve (be_val 256 (be_bytes 32 field_prime)) y) /\
  exists n, pt_parse (coords ex_gx ex_gy) (pt_new, 0) (2 :: be_bytes 32 field_prime) = Ok ((mkPt (coords ex_gx ex_gy) true DONE 33, 2), n, []).
Proof.
  assert (N : forall y, ~ on_curve (be_val 256 (be_bytes 32 field_prime)) y) by (intros y (H & _); vm_compute in H; destruct H; discriminate).
  split; [exact N|]. apply C48_accepts_refuted; [exact ex_ready|left; reflexivity|apply IntVarint.be_bytes_ok|reflexivity|exact N|exact (proj1 ex_points)].
Qed.

(** What isValid() says about any 64 bytes: an uncompressed point is checked exactly, of a compressed
    one only the x coordinate is. *)
Theorem C48_valid : forall x y c n, 0 <= x < 2^256 -> 0 <= y < 2^256 ->
  exists b, pt_is_valid (mkPt (coords x y) c DONE n) = Ok b /\
    (b = true <-> if c then exists y', on_curve x y' /\ y' mod 2 = y mod 2 else on_curve x y).
Proof. exact valid_exact. Qed.
Print Assumptions C48_valid.
Theorem C48_valid_refuted : forall x y y' n, on_curve x y -> 0 <= y' < 2^256 -> y' mod 2 = y mod 2 -> y' <> y ->
  pt_is_valid (mkPt (coords x y') true DONE n) = Ok true /\ ~ on_curve x y'.
Proof. exact valid_wrong. Qed.
Print Assumptions C48_valid_refuted.
Example C48_valid_case : pt_is_valid (mkPt (coords ex_gx (ex_gy + 2)) true DONE 0) = Ok true /\
  pt_is_valid (mkPt (coords ex_gx (ex_gy + 2)) false DONE 0) = Ok false /\ pt_is_valid (mkPt (coords ex_gx ex_gy) false DONE 0) = Ok true.
Proof.
  split; [|vm_compute; repeat split].
  apply (C48_valid_refuted ex_gx ex_gy (ex_gy + 2) 0 (proj1 ex_points)); [vm_compute; split; [discriminate|reflexivity]|vm_compute; reflexivity|vm_compute; discriminate].
Qed.

(** * C15, C16 for points *)
Theorem C15_point_slices : forall k, length (pt_xy k) = 64%nat -> gives_slices (pt_to_stream k)
  (if pt_comp k then (2 + nth 63 (pt_xy k) 0 mod 2) :: firstn 32 (pt_xy k) else 4 :: pt_xy k).
Proof. exact pt_slices_any. Qed.
Print Assumptions C15_point_slices.
Example C15_point_case : pt_to_stream (mkPt (coords ex_gx ex_gy) true DONE 0) (Some 7%nat) 30 = Ok (skipn 30 (sec_bytes true ex_gx ex_gy)).
Proof. vm_compute. reflexivity. Qed.
(** One point at a time: the shared variable is part of the state. *)
Theorem C16_point_chunks : forall garbage k first, pt_ready k -> chunk_invariant (pt_parse garbage) pt_state_status (k, first).
Proof. exact pt_chunks. Qed.
Print Assumptions C16_point_chunks.
Example C16_point_case : let e := sec_bytes false ex_hx ex_hy in
  feed (pt_parse (zeros 64)) pt_state_status (pt_new, 3) [firstn 1 e; firstn 40 (skipn 1 e); skipn 41 e ++ [5]] =
  Ok ((mkPt (coords ex_hx ex_hy) false DONE 65, 4), 65, [5]).
Proof. vm_compute. reflexivity. Qed.

(** * C49 *)
(** Two keys, any schedule of their chunks. Missing from the full statement: keys whose first bytes differ. *)
Theorem C49_interleaved_partial : forall garbage ka kb ca xa ya cb xb yb sched first, pt_ready ka -> pt_ready kb ->
  on_curve xa ya -> on_curve xb yb -> hd 0 (sec_bytes ca xa ya) = hd 0 (sec_bytes cb xb yb) -> Forall (fun s => snd s <> []) sched ->
  concat (chunks_for false sched) = sec_bytes ca xa ya -> concat (chunks_for true sched) = sec_bytes cb xb yb ->
  run_two (pt_parse garbage) sched ka kb first =
  Ok (mkPt (coords xa ya) ca DONE (pt_length ca), mkPt (coords xb yb) cb DONE (pt_length cb)).
Proof. exact two_points_same. Qed.
Print Assumptions C49_interleaved_partial.
Example C49_interleaved_case : let a := sec_bytes false ex_gx ex_gy in let b := sec_bytes false ex_hx ex_hy in
  run_two (pt_parse (zeros 64)) [(false, firstn 5 a); (true, firstn 9 b); (false, skipn 5 a); (true, skipn 9 b)] pt_new pt_new 0 =
  Ok (mkPt (coords ex_gx ex_gy) false DONE 65, mkPt (coords ex_hx ex_hy) false DONE 65).
Proof. vm_compute. reflexivity. Qed.
(** Compressed keys of different parity: wherever the first one is interrupted by the second, it ends up
    complete, valid, and negated. *)
Theorem C49_interleaved_refuted : forall garbage ka kb xa ya xb yb first i, pt_ready ka -> pt_ready kb -> on_curve xa ya -> on_curve xb yb ->
  ya <> 0 -> ya mod 2 <> yb mod 2 -> (0 < i < 33)%nat ->
  run_two (pt_parse garbage) [(false, firstn i (sec_bytes true xa ya)); (true, sec_bytes true xb yb); (false, skipn i (sec_bytes true xa ya))] ka kb first =
    Ok (mkPt (coords xa (field_prime - ya)) true DONE 33, mkPt (coords xb yb) true DONE 33) /\
  coords xa (field_prime - ya) <> coords xa ya.
Proof. exact two_points_wrong. Qed.
Print Assumptions C49_interleaved_refuted.
(** Interrupted by an uncompressed key, the reader runs past the end of its buffer. *)
Theorem C49_overread_refuted : forall garbage ka kb xa ya xb yb first i, pt_ready ka -> pt_ready kb -> on_curve xa ya -> on_curve xb yb ->
  (0 < i < 33)%nat ->
  run_two (pt_parse garbage) [(false, firstn i (sec_bytes true xa ya)); (true, sec_bytes false xb yb); (false, skipn i (sec_bytes true xa ya))] ka kb first = UB.
Proof. exact two_ub. Qed.
Print Assumptions C49_overread_refuted.
Example C49_refuted_case : let a := sec_bytes true ex_gx ex_gy in
  run_two (pt_parse (zeros 64)) [(false, firstn 20 a); (true, sec_bytes true ex_hx ex_hy); (false, skipn 20 a)] pt_new pt_new 0 =
  Ok (mkPt (coords ex_gx (field_prime - ex_gy)) true DONE 33, mkPt (coords ex_hx ex_hy) true DONE 33).
Proof.
  intros a. apply (C49_interleaved_refuted (zeros 64) pt_new pt_new ex_gx ex_gy ex_hx ex_hy 0 20 ex_ready ex_ready (proj1 ex_points) (proj1 (proj2 ex_points)));
    [discriminate|vm_compute; discriminate|lia].
Qed.

(** * C36 with the real points *)
Theorem C36_xpub_points : forall garbage test t v k k0 rest x y, slip132_pub test t = Some v ->
  hp_net k = net_of test -> hp_type k = t -> hp_sized k -> hp_valued k -> hp_sized k0 -> hp_status k0 = DONE ->
  hp_point k = coords x y -> on_curve x y ->
  hp_hex k = bip32_bytes v (hp_depth k) (hp_fp k) (hp_child k) (hp_chain k) (sec_bytes true x y) /\
  hp_parse uncompress_pubkey pt_valid_bytes garbage k0 (hp_hex k ++ rest) =
  Ok (mkHp (hp_point k) (hp_chain k) (hp_depth k) (hp_fp k) (hp_child k) (hp_net k) (hp_type k) (be_bytes 4 v) DONE 78, 78, rest).
Proof. exact xpub_points. Qed.
Print Assumptions C36_xpub_points.
(** A key that starts with 4 makes the parser read past the end of its array. *)
Theorem C36_xpub_overread_refuted : forall garbage test t v dp fp cn ch xs k0 rest, slip132_pub test t = Some v -> hp_sized k0 -> hp_status k0 = DONE ->
  length fp = 4%nat -> length ch = 32%nat -> length xs = 32%nat -> 0 <= cn < 2^32 ->
  hp_parse uncompress_pubkey pt_valid_bytes garbage k0 (bip32_bytes v dp fp cn ch (4 :: xs) ++ rest) = UB.
Proof. exact xpub_over. Qed.
Print Assumptions C36_xpub_overread_refuted.
Example C36_xpub_points_case :
  let k := mkHp (coords ex_hx ex_hy) (zeros 32) 3 [1; 2; 3; 4] 7 Mainnet P2WPKH (zeros 4) DONE 0 in
  (let! r := hp_parse uncompress_pubkey pt_valid_bytes (zeros 64) hp_new (hp_hex k ++ [3]) in
   let '(k', n, rest) := r in Ok (hp_hex k' , hp_status k', n, rest)) = Ok (hp_hex k, DONE, 78, [3]).
Proof.
  intros k.
  assert (V : hp_valued k).
  { split; [apply BytesFacts.bytes_ok_app; split; apply IntVarint.be_bytes_ok|]. split; [apply BytesFacts.bytes_ok_zeros|]. split; [repeat constructor; unfold byte_ok; lia|].
    split; [unfold byte_ok; cbn [k hp_depth]; lia|cbn [k hp_child]; lia]. }
  destruct (C36_xpub_points (zeros 64) false P2WPKH 0x04b24746 k hp_new [3] ex_hx ex_hy eq_refl eq_refl eq_refl) as [_ E];
    [repeat split|exact V|repeat split|reflexivity|reflexivity|exact (proj1 (proj2 ex_points))|]. rewrite E. reflexivity.
Qed.
