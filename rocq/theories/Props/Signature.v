(** C24, C25, C26 and the signature parts of C15-C17. *)
From Coq Require Import Lia.
From Verif Require Import Base.Bytes Base.BytesFacts Model.Stream Model.Signature
  Spec.Codecs Spec.Wire Spec.Objects Spec.Signature Proof.SigFacts Proof.SigProps Proof.SigPieces.
Open Scope Z_scope.

(** * C24 *)
(** der() and serialize() give the DER encoding of the two numbers ... *)
Theorem C24_der : forall g x y, sig_holds g x y -> exists d, der_sig x y d /\ 8 <= len d <= 72 /\ sig_length g = len d /\
  (forall n, (length d <= n)%nat -> sig_der g n = Ok (len d, d ++ zeros (n - length d))) /\
  gives_slices (sig_to_stream g) d.
Proof. exact der_writes. Qed.
Print Assumptions C24_der.
(** ... which there is one of ... *)
Theorem C24_der_unique : forall x a b, der_integer x a -> der_integer x b -> a = b.
Proof. exact der_integer_unique. Qed.
Print Assumptions C24_der_unique.
(** ... and parsing it gives the numbers back, whatever stands behind it. *)
Theorem C24_round_trip : forall g0 x y d rest, sg_status g0 = DONE -> der_sig x y d -> 0 <= x < 2^256 -> 0 <= y < 2^256 ->
  exists g, sig_parse g0 (d ++ rest) = Ok (g, len d, rest) /\ sg_status g = DONE /\ sig_holds g x y.
Proof. exact der_parses. Qed.
Print Assumptions C24_round_trip.
Definition ex_sig : signature := sig_of (200 :: zeros 30 ++ [7]) (zeros 29 ++ [0; 129; 5]).
Example C24_ex : sig_holds ex_sig (200 * 2^248 + 7) 33029 /\
  sig_der ex_sig 72 = Ok (42, [48; 40; 2; 33; 0; 200] ++ zeros 30 ++ [7; 2; 3; 0; 129; 5] ++ zeros 30) /\
  sig_parse sig_new ([48; 40; 2; 33; 0; 200] ++ zeros 30 ++ [7; 2; 3; 0; 129; 5] ++ [1; 1]) =
    Ok (mkSig (sg_r ex_sig) (sg_s ex_sig) 40 33 3 0 DONE 42, 42, [1; 1]).
Proof.
  split; [|vm_compute; auto].
  split; [reflexivity|]. split; [apply bytes_ok_bool; reflexivity|]. split; [reflexivity|].
  split; [reflexivity|]. split; [apply bytes_ok_bool; reflexivity|]. reflexivity.
Qed.

(** * C25 *)
(** The second byte, the length of everything that follows, is not looked at
    beyond being at most 70: any other value is accepted as well. *)
Theorem C25_strict_refuted : forall g0 x y d t rest, sg_status g0 = DONE -> der_sig x y d -> 0 <= x < 2^256 -> 0 <= y < 2^256 ->
  0 <= t <= 70 ->
  exists g, sig_parse g0 (with_total d t ++ rest) = Ok (g, len d, rest) /\ sg_status g = DONE /\ sig_holds g x y.
Proof. exact der_total_ignored. Qed.
Print Assumptions C25_strict_refuted.
Example C25_ex : sig_parse sig_new [48; 0; 2; 1; 9; 2; 1; 8] =
   Ok (mkSig (zeros 31 ++ [9]) (zeros 31 ++ [8]) 0 1 1 0 DONE 8, 8, []) /\
  der_sig 9 8 [48; 6; 2; 1; 9; 2; 1; 8].
Proof.
  split; [vm_compute; reflexivity|]. exists [9], [8].
  split; [|split]; try reflexivity;
    (split; [apply bytes_ok_bool; reflexivity|split; [discriminate|split; [cbn [hd]; lia|split; [reflexivity|exact I]]]]).
Qed.
(** Full statement: [st] begins with [d] itself. What holds: it begins with [d] up
    to that byte. *)
Theorem C25_strict_partial : forall g0 st g n rest, bytes_ok st -> sg_status g0 = DONE ->
  sig_parse g0 st = Ok (g, n, rest) -> sg_status g = DONE ->
  exists x y d t, sig_holds g x y /\ der_sig x y d /\ 0 <= t <= 70 /\ st = with_total d t ++ rest /\ n = len d.
Proof. exact der_strict. Qed.
Print Assumptions C25_strict_partial.
(** Whatever the bytes, nothing outside the object is touched. *)
Theorem C25_total : forall g0 st, bytes_ok st -> sg_status g0 = DONE -> exists g n rest, sig_parse g0 st = Ok (g, n, rest).
Proof. exact sig_parse_total. Qed.
Print Assumptions C25_total.
Example C25_total_ex : exists g, sig_parse sig_new [48; 70; 2; 33; 1; 1] = Ok (g, 5, [1]) /\ sg_status g = FAILED.
Proof. eexists. vm_compute. auto. Qed.

(** * C26 *)
(** bin() for every array: as much of r, s and the index as fits. *)
Theorem C26_bin : forall g arr, length (sg_r g) = 32%nat -> length (sg_s g) = 32%nat ->
  sig_bin g arr = Ok (firstn (length arr) (sg_r g ++ sg_s g ++ [sg_index g]) ++ skipn 65 arr).
Proof. exact sig_bin_spec. Qed.
Print Assumptions C26_bin.
(** fromBin() for every array: its bytes replace the first ones of r, s and the index. *)
Theorem C26_fromBin : forall g arr, length (sg_r g) = 32%nat -> length (sg_s g) = 32%nat ->
  exists g', sig_fromBin g arr = Ok g' /\ length (sg_r g') = 32%nat /\ length (sg_s g') = 32%nat /\
    sg_r g' ++ sg_s g' ++ [sg_index g'] = firstn 65 arr ++ skipn (length arr) (sg_r g ++ sg_s g ++ [sg_index g]).
Proof. exact sig_fromBin_spec. Qed.
Print Assumptions C26_fromBin.
Theorem C26_there_and_back : forall g h, length (sg_r g) = 32%nat -> length (sg_s g) = 32%nat ->
  length (sg_r h) = 32%nat -> length (sg_s h) = 32%nat ->
  exists arr h', sig_bin g (zeros 65) = Ok arr /\ sig_fromBin h arr = Ok h' /\
    sg_r h' = sg_r g /\ sg_s h' = sg_s g /\ sg_index h' = sg_index g.
Proof. exact compact_there. Qed.
Print Assumptions C26_there_and_back.
Theorem C26_back_and_there : forall g arr, length (sg_r g) = 32%nat -> length (sg_s g) = 32%nat -> length arr = 65%nat ->
  exists g', sig_fromBin g arr = Ok g' /\ sig_bin g' (zeros 65) = Ok arr.
Proof. exact compact_back. Qed.
Print Assumptions C26_back_and_there.
Example C26_ex : sig_bin ex_sig (zeros 64 ++ [9; 9]) = Ok (200 :: zeros 30 ++ 7 :: zeros 30 ++ [129; 5; 0; 9]) /\
  sig_fromBin ex_sig (zeros 31 ++ [1; 2]) = Ok (sig_of (zeros 31 ++ [1]) (2 :: zeros 28 ++ [0; 129; 5])).
Proof. vm_compute. auto. Qed.
Theorem C26_schnorr_parse : forall g r s rest, sn_status g = DONE -> length r = 32%nat -> length s = 32%nat ->
  sch_parse g (r ++ s ++ rest) = Ok (mkSch r s DONE 64, 64, rest).
Proof. exact sch_parses. Qed.
Print Assumptions C26_schnorr_parse.

(** * C15, C16, C17 *)
Theorem C15_schnorr_slices : forall g, length (sn_r g) = 32%nat -> length (sn_s g) = 32%nat ->
  gives_slices (sch_to_stream g) (sn_r g ++ sn_s g).
Proof. exact sch_slices. Qed.
Print Assumptions C15_schnorr_slices.
Theorem C16_schnorr_chunks : forall g, sn_status g <> INCOMPLETE -> chunk_invariant sch_parse sn_status g.
Proof. exact sch_chunks. Qed.
Print Assumptions C16_schnorr_chunks.
Example C16_schnorr_ex : feed sch_parse sn_status sch_new [zeros 20 ++ [1]; zeros 11 ++ [2]; zeros 31 ++ [5; 6]] =
  Ok (mkSch (zeros 20 ++ 1 :: zeros 11) (2 :: zeros 31) DONE 64, 64, [5; 6]).
Proof. vm_compute. reflexivity. Qed.
(** Every DER signature cut anywhere before the length of its second number is
    rejected, although it is accepted in one piece. *)
Theorem C17_der_cut_refuted : forall g0 x y d k, sg_status g0 = DONE -> der_sig x y d -> 0 <= x < 2^256 -> 0 <= y < 2^256 ->
  (0 < k)%nat -> Z.of_nat k <= 5 + nth 3 d 0 ->
  failed sg_status (feed sig_parse sg_status g0 [firstn k d; skipn k d]) /\
  exists g, sig_parse g0 d = Ok (g, len d, []) /\ sg_status g = DONE /\ sig_holds g x y.
Proof. exact der_cut_both. Qed.
Print Assumptions C17_der_cut_refuted.
Example C17_der_ex : exists g, feed sig_parse sg_status sig_new [[48; 6; 2]; [1; 9; 2; 1; 8]] = Ok (g, 3, [1; 9; 2; 1; 8]) /\
  sg_status g = FAILED.
Proof. eexists. vm_compute. auto. Qed.
(** What is left of the property: exactly from which first piece the parser goes on. The pieces
    after it can be any, empty ones too. Missing: the other first pieces, which fail. *)
Theorem C17_der_pieces_partial : forall g0 x y d rest c cs, sg_status g0 = DONE -> der_sig x y d -> 0 <= x < 2^256 -> 0 <= y < 2^256 ->
  concat (c :: cs) = d ++ rest ->
  (der_start d (length c) -> exists g, feed sig_parse sg_status g0 (c :: cs) = Ok (g, len d, rest) /\
     sig_parse g0 (d ++ rest) = Ok (g, len d, rest) /\ sg_status g = DONE /\ sig_holds g x y) /\
  (~ der_start d (length c) -> failed sg_status (feed sig_parse sg_status g0 (c :: cs))).
Proof. exact der_pieces. Qed.
Print Assumptions C17_der_pieces_partial.
(** The numbers 9 and 51200 = 00 c8 00: two bytes of the second number are needed. *)
Example C17_der_pieces_ex : der_sig 9 51200 [48; 8; 2; 1; 9; 2; 3; 0; 200; 0] /\
  der_start [48; 8; 2; 1; 9; 2; 3; 0; 200; 0] 9 /\ ~ der_start [48; 8; 2; 1; 9; 2; 3; 0; 200; 0] 8 /\
  feed sig_parse sg_status sig_new [[48; 8; 2; 1; 9; 2; 3; 0; 200]; []; [0; 7]] =
    Ok (mkSig (zeros 31 ++ [9]) (zeros 30 ++ [200; 0]) 8 1 3 0 DONE 10, 10, [7]) /\
  failed sg_status (feed sig_parse sg_status sig_new [[48; 8; 2; 1; 9; 2; 3; 0]; [200; 0; 7]]).
Proof.
  split; [|split; [|split; [|split]]].
  - exists [9], [0; 200; 0]. split; [|split; [|reflexivity]]; (split; [apply bytes_ok_bool; reflexivity|]; split; [discriminate|]; vm_compute; repeat split; auto; discriminate).
  - right. cbn. split; [lia|]. right. exists 8%nat. split; [lia|discriminate].
  - intros [D|[_ [D|(i & I & D)]]]; cbn in D; [lia|discriminate|]. cbn in I. assert (i = 7%nat) by lia. subst i. apply D. reflexivity.
  - vm_compute. reflexivity.
  - do 3 eexists. split; [vm_compute; reflexivity|reflexivity].
Qed.
