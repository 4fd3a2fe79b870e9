(** C37, C47, C71, C73, C74, C75: the operators on points, and what is built of them. *)
From Verif Require Import Base.Bytes Spec.Codecs Spec.Hash Spec.Keys Spec.Scalar Spec.Bignum Spec.Point Spec.Curve Spec.Schemes
  Model.Bignum Model.Scalar Model.Stream Model.Point Model.Hash Model.HD Model.EC Model.PointOps Proof.PointOpsFacts Proof.SchemeProps Proof.SchemeMain Proof.SchemeMore Proof.HDReal Proof.SignHints Proof.PointCases.
Open Scope Z_scope.

(** * C71: the operators are those of the group of the curve *)
(** Addition of any two points: equal, opposite and infinite ones included. *)
Theorem C71_add : forall p q a b, is_point a -> is_point b -> pt_xy p = point_bytes a -> pt_xy q = point_bytes b ->
  exists r, pt_add p q = Ok r /\ pt_xy r = point_bytes (ec_add a b).
Proof. exact pt_add_ok. Qed.
Print Assumptions C71_add.
Theorem C71_neg : forall g p a, is_point a -> pt_xy p = point_bytes a -> exists r, pt_neg g p = Ok r /\ pt_xy r = point_bytes (ec_neg a).
Proof. exact pt_neg_ok. Qed.
Print Assumptions C71_neg.
Theorem C71_sub : forall g p q a b, is_point a -> is_point b -> pt_xy p = point_bytes a -> pt_xy q = point_bytes b ->
  exists r, pt_sub g p q = Ok r /\ pt_xy r = point_bytes (ec_add a (ec_neg b)).
Proof. exact pt_sub_ok. Qed.
Print Assumptions C71_sub.
(** Multiplication of a finite point by a scalar below the order; the random number has no influence. *)
Theorem C71_mul_partial : forall rz num p a, random_below field_prime rz -> is_scalar num -> is_point a -> a <> None -> pt_xy p = point_bytes a ->
  exists r, pt_mul rz num p = Ok r /\ pt_xy r = point_bytes (ec_mul (number num) a) /\ pt_comp r = pt_comp p.
Proof. exact pt_mul_ok. Qed.
Print Assumptions C71_mul_partial.
(** Missing: a scalar that is not below the order, which fails an assertion. *)
Theorem C71_large_scalar_refuted : forall rz num p, word256 num -> group_order <= number num -> length (pt_xy p) = 64%nat -> pt_mul rz num p = UB.
Proof. exact pt_mul_over. Qed.
Print Assumptions C71_large_scalar_refuted.
(** The laws a user calculates with, as comparisons with ==. *)
Theorem C71_add_laws : forall p q r a b c, is_point a -> is_point b -> is_point c -> pt_xy p = point_bytes a -> pt_xy q = point_bytes b -> pt_xy r = point_bytes c ->
  exists pq qp qr pq_r p_qr, pt_add p q = Ok pq /\ pt_add q p = Ok qp /\ pt_add q r = Ok qr /\ pt_add pq r = Ok pq_r /\ pt_add p qr = Ok p_qr /\
    pt_eq pq qp = true /\ pt_eq pq_r p_qr = true.
Proof. exact add_laws. Qed.
Print Assumptions C71_add_laws.
Theorem C71_neg_laws : forall g p a, is_point a -> pt_xy p = point_bytes a ->
  exists n s d, pt_neg g p = Ok n /\ pt_add p n = Ok s /\ pt_eq s InfinityPoint = true /\ pt_sub g p p = Ok d /\ pt_eq d InfinityPoint = true /\
    exists nn, pt_neg g n = Ok nn /\ pt_eq nn p = true.
Proof. exact neg_laws. Qed.
Print Assumptions C71_neg_laws.
Theorem C71_mul_laws_partial : forall rz1 rz2 rz3 rz4 s t p a,
  random_below field_prime rz1 -> random_below field_prime rz2 -> random_below field_prime rz3 -> random_below field_prime rz4 ->
  is_scalar s -> is_scalar t -> is_point a -> a <> None -> pt_xy p = point_bytes a ->
  exists sp tp sum st u, pt_mul rz1 s p = Ok sp /\ pt_mul rz2 t p = Ok tp /\ pt_add sp tp = Ok sum /\ pt_mul rz3 (sc_add s t) p = Ok st /\ pt_eq sum st = true /\
    sc_mul s t = Ok u /\ exists up, pt_mul rz4 u p = Ok up /\ pt_xy up = point_bytes (ec_mul (number s * number t) a).
Proof. exact mul_laws. Qed.
Print Assumptions C71_mul_laws_partial.
(** GeneratorPoint is what its constructor reads from the bytes in the source. *)
Theorem C71_generator : pt_xy GeneratorPoint = point_bytes gen /\ (forall g fb, pt_parse g (pt_new, fb) generator_sec = Ok (GeneratorPoint, 2, 33, [])).
Proof. split; [exact generator_bytes|exact generator_parses]. Qed.
Print Assumptions C71_generator.
(** A 256 bit multiple of the generator and its opposite. *)
Example C71_case : forall rz, random_below field_prime rz -> exists r, pt_mul rz (be_bytes 32 satoshi_k) GeneratorPoint = Ok r /\ pt_xy r = coords (fst satoshi_point) (snd satoshi_point) /\
  forall g, exists n, pt_neg g r = Ok n /\ pt_xy n = coords (fst satoshi_point) (field_prime - snd satoshi_point).
Proof. exact mul_case. Qed.

(** * C73: the public key of a secret *)
Theorem C73_public_key : forall rz d c, random_below field_prime rz -> is_scalar d ->
  exists p, prv_make rz d c = Ok (mkPrv d p) /\ pt_xy p = point_bytes (ec_mul (number d) gen) /\ pt_comp p = c /\ pt_status p = DONE.
Proof. exact prv_make_ok. Qed.
Print Assumptions C73_public_key.
(** Different secrets from 0 to the order minus 1 have different public keys. *)
Theorem C73_injective : forall rz rz' d d' c c' k k', random_below field_prime rz -> random_below field_prime rz' -> is_scalar d -> is_scalar d' ->
  prv_make rz d c = Ok k -> prv_make rz' d' c' = Ok k' -> pt_eq (prv_pub k) (prv_pub k') = true -> d = d'.
Proof. exact prv_inj. Qed.
Print Assumptions C73_injective.
(** A secret that is not below the order is not refused: an assertion in the constructor stops the program. *)
Theorem C73_large_secret_refuted : forall rz d c, word256 d -> group_order <= number d -> prv_make rz d c = UB.
Proof. exact prv_make_over. Qed.
Print Assumptions C73_large_secret_refuted.
Example C73_large_secret_case : word256 (zeros 31 ++ [1]) /\ is_scalar (zeros 31 ++ [1]) /\ word256 (repeat 255 32) /\ group_order <= number (repeat 255 32).
Proof. exact large_case. Qed.

(** * C47: both sides of a key agreement get the same secret *)
Theorem C47_symmetric : forall rz0 rz0' rz1 rz2 a b ca cb ka kb h,
  random_below field_prime rz0 -> random_below field_prime rz0' -> random_below field_prime rz1 -> random_below field_prime rz2 ->
  word256 a -> word256 b -> 0 < number a < group_order -> 0 < number b < group_order -> prv_make rz0 a ca = Ok ka -> prv_make rz0' b cb = Ok kb ->
  exists x y, ec_mul (number a * number b) gen = Some (x, y) /\ on_curve x y /\
    prv_ecdh rz1 ka (prv_pub kb) h = Ok (if h then sha256 (coords x y) else be_bytes 32 x) /\
    prv_ecdh rz2 kb (prv_pub ka) h = Ok (if h then sha256 (coords x y) else be_bytes 32 x).
Proof. exact ecdh_symmetric. Qed.
Print Assumptions C47_symmetric.
(** With the point at infinity for the other side's key the call ends in an inversion of 0, which reads memory in
    front of an array (C66). *)
Theorem C47_infinity_refuted : forall rz a p q h, random_below field_prime rz -> word256 a -> number a <> 0 -> pt_xy q = point_bytes None ->
  prv_ecdh rz (mkPrv a p) q h = UB.
Proof. exact ecdh_infinity. Qed.
Print Assumptions C47_infinity_refuted.
Example C47_case : forall rz0 rz0' rz1 rz2, random_below field_prime rz0 -> random_below field_prime rz0' -> random_below field_prime rz1 -> random_below field_prime rz2 ->
  exists ka kb, prv_make rz0 (be_bytes 32 1) true = Ok ka /\ prv_make rz0' (be_bytes 32 satoshi_k) false = Ok kb /\
    prv_ecdh rz1 ka (prv_pub kb) false = Ok (be_bytes 32 (fst satoshi_point)) /\ prv_ecdh rz2 kb (prv_pub ka) false = Ok (be_bytes 32 (fst satoshi_point)).
Proof. exact ecdh_case. Qed.

(** * C74: the order of public keys *)
(** [operator<] is the strict total order of the serializations, reversed: p < q says that p's bytes, as a
    number and padded with zeros to 65 bytes, are greater. *)
Theorem C74_less : forall p q x y x' y', pt_xy p = coords x y -> pt_xy q = coords x' y' ->
  pt_less p q = Ok (be_val 256 (sec_bytes (pt_comp q) x' y' ++ zeros (65 - length (sec_bytes (pt_comp q) x' y'))) <?
                    be_val 256 (sec_bytes (pt_comp p) x y ++ zeros (65 - length (sec_bytes (pt_comp p) x y)))).
Proof. exact less_ok. Qed.
Print Assumptions C74_less.
(** So for two compressed keys the one whose bytes come first (BIP67) is never the smaller one. *)
Theorem C74_lexicographic_refuted : forall p q x y x' y', pt_xy p = coords x y -> pt_xy q = coords x' y' -> pt_comp p = true -> pt_comp q = true ->
  be_val 256 (sec_bytes true x y) < be_val 256 (sec_bytes true x' y') -> pt_less p q = Ok false /\ pt_less q p = Ok true.
Proof. exact less_reversed. Qed.
Print Assumptions C74_lexicographic_refuted.
Example C74_case : let p := mkPt (coords gen_x gen_y) true DONE 0 in let q := mkPt (coords gen_x (field_prime - gen_y)) true DONE 0 in
  be_val 256 (sec_bytes true gen_x gen_y) < be_val 256 (sec_bytes true gen_x (field_prime - gen_y)) /\ pt_less p q = Ok false /\ pt_less q p = Ok true.
Proof. exact less_case. Qed.

(** * C75: multiples of the point at infinity *)
(** The natural claim, that they are the point at infinity, is false for every scalar but 0: the call ends in an
    inversion of 0, which reads memory in front of an array (C66). *)
Theorem C75_infinity_refuted : forall rz num p, random_below field_prime rz -> word256 num -> number num <> 0 -> pt_xy p = point_bytes None -> pt_mul rz num p = UB.
Proof. exact mul_infinity. Qed.
Print Assumptions C75_infinity_refuted.
(** Such a point is the result of ordinary calculations. *)
Example C75_case : forall rz1 rz2 num, random_below field_prime rz1 -> random_below field_prime rz2 -> word256 num -> number num <> 0 ->
  exists m s, pt_mul rz1 (be_bytes 32 (group_order - 1)) GeneratorPoint = Ok m /\ pt_add m GeneratorPoint = Ok s /\ pt_eq s InfinityPoint = true /\ pt_mul rz2 num s = UB.
Proof. exact infinity_reached. Qed.

(** * C37 with the library's own operators and hashes *)
Theorem C37_code_child_agree : forall rz, random_below field_prime rz -> forall k i, word256 (hk_num k) -> number (hk_num k) < group_order -> 0 <= i < 2^31 ->
  to_pub (code_mulG rz) (hk_child_of sha512Hmac hash160 (code_mulG rz) k i false) =
  hp_child_of sha512Hmac hash160 (code_mulG rz) code_padd (to_pub (code_mulG rz) k) i.
Proof. exact code_child_agree. Qed.
Print Assumptions C37_code_child_agree.
Theorem C37_code_derive_agree : forall rz, random_below field_prime rz -> forall l k, word256 (hk_num k) -> number (hk_num k) < group_order ->
  List.Forall (fun i => 0 <= i < 2^31) l ->
  to_pub (code_mulG rz) (hk_derive sha512Hmac hash160 (code_mulG rz) k l) =
  hp_derive sha512Hmac hash160 (code_mulG rz) code_padd (to_pub (code_mulG rz) k) l.
Proof. exact code_derive_agree. Qed.
Print Assumptions C37_code_derive_agree.
