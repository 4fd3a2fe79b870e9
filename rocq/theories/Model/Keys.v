(** Scalars, private keys and the wallet import format:
    src/BitcoinCurve.cpp, src/Bitcoin.cpp, src/Bitcoin.h. *)
From Verif Require Import Base.Bytes Model.Conversion Model.Stream Model.Networks.
Open Scope Z_scope.

(** utility/trezor/secp256k1.c:36-38: the order of the group, from its nine 30 bit limbs. *)
Definition secp_order : Z :=
  le_val (2^30) [0x10364141; 0x3f497a33; 0x348a03bb; 0x2bb739ab; 0x3ffffeba; 0x3fffffff; 0x3fffffff; 0x3fffffff; 0xffff].

(** BitcoinCurve.h:103-107: [num], with the parser state of Streamable (BaseClasses.h). *)
Record scalar := mkSc { sc_num : list Z; sc_status : pstatus; sc_parsed : Z }.
(** BitcoinCurve.h:108-113. *)
Definition sc_new : scalar := mkSc (zeros 32) DONE 0.

(** utility/trezor/bignum.c:387-393 [bn_mod] on the value: one conditional subtraction. *)
Definition bn_mod_order (x : Z) : Z := if x <? secp_order then x else x - secp_order.
(** utility/trezor/bignum.c:111-122 [bn_write_be] on the value: [n] bytes, most significant first. *)
Definition be_write (n : nat) (x : Z) : list Z :=
  map (fun i => x / 256 ^ Z.of_nat (n - 1 - i) mod 256) (seq 0 n).
(** BitcoinCurve.cpp:182-185, Bitcoin.cpp:493-496: [bn_read_be], [bn_mod], [bn_write_be]. *)
Definition reduce_num (num : list Z) : list Z := be_write 32 (bn_mod_order (be_val 256 num)).

(** BitcoinCurve.cpp:171-188 after the status checks; Bitcoin.cpp:483-501 is the same
    code followed by the computation of the public key. *)
Definition sc_parse_body (k : scalar) (st : list Z) : outcome (scalar * Z * list Z) :=
  let! r := read_loop_o 32 (sc_parsed k) (fun a p c => aset a p c) (sc_num k) st in
  let '(num, pos, st1) := r in
  if pos =? 32 then
    let status := if list_eq_dec Z.eq_dec num (zeros 32) then FAILED else DONE in
    Ok (mkSc (reduce_num num) status pos, pos - sc_parsed k, st1)
  else Ok (mkSc num INCOMPLETE pos, pos - sc_parsed k, st1).
(** BitcoinCurve.cpp:163-189 [ECScalar::from_stream], Bitcoin.cpp:475-502 [PrivateKey::from_stream]. *)
Definition sc_parse (k : scalar) (st : list Z) : outcome (scalar * Z * list Z) :=
  match sc_status k with
  | FAILED => Ok (k, 0, st)
  | DONE => sc_parse_body (mkSc (sc_num k) INCOMPLETE 0) st
  | INCOMPLETE => sc_parse_body k st
  end.
(** BitcoinCurve.cpp:190-197 [ECScalar::to_stream]. *)
Definition sc_to_stream (k : scalar) : serializer := fun cap offset =>
  let! w := write_loop 32 0 32 (sc_num k) (mkWst offset cap []) in
  Ok (w_out w).

(** Bitcoin.h:161-235: the secret, the network and the [compressed] flag of the cached
    public key. The point itself is recomputed from the secret (Bitcoin.cpp:587) and is
    not repeated here. *)
Record privkey := mkPk { pk_num : list Z; pk_net : network; pk_compressed : bool }.

Section WIF.
Variable doubleSha : list Z -> list Z.

(** Bitcoin.cpp:539-546: [wifHex], cut to the length [len]. *)
Definition wif_payload (k : privkey) : list Z :=
  n_wif (pk_net k) :: pk_num k ++ (if pk_compressed k then [1] else []).
(** Bitcoin.cpp:536-551 [PrivateKey::wif]; [out] is [wifArr] on entry. *)
Definition wif (k : privkey) (out : list Z) : Z * list Z :=
  toBase58Check doubleSha (wif_payload k) (zeros (length out)).

(** Bitcoin.cpp:566-573: the first network with this prefix. *)
Definition net_of_wif (b : Z) : option network :=
  find (fun n => b =? n_wif n) networks.
(** Bitcoin.cpp:559-592 [PrivateKey::fromWIF]; DEFAULT_NETWORK is Mainnet (uBitcoin_conf.h:5). *)
Definition fromWIF (k : privkey) (s : list Z) : Z * privkey :=
  let '(l, arr) := fromBase58Check doubleSha s (zeros 40) in
  if (l <? 33) || (34 <? l) then (0, mkPk (zeros 32) (pk_net k) (pk_compressed k))
  else
    match net_of_wif (nth 0 arr 0) with
    | None => (0, mkPk (pk_num k) Mainnet (pk_compressed k))
    | Some net =>
        let compressed := (l =? 34) && (0 <? nth 33 arr 0) in
        (1, mkPk (firstn 32 (skipn 1 arr)) net compressed)
    end.
End WIF.
