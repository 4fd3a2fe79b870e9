(** Hierarchical deterministic keys: src/HDWallet.cpp, src/Bitcoin.h. *)
From Verif Require Import Base.Bytes Model.Conversion Model.Stream Model.Networks Model.Keys.
From Verif Require Import Model.Sign.
Open Scope Z_scope.

(** Bitcoin.h:37. *)
Definition HARDENED_INDEX : Z := 0x80000000.

(** * Derivation paths *)

(** HDWallet.cpp:491-499 and 830-838: looks at [n] characters from [rest] on (the path and
    its terminating NUL; running off the end is UB) and counts the components.
    [None]: a character outside [valid]. *)
Fixpoint path_scan (valid rest : list Z) (n cnt : Z) : outcome (option Z) :=
  match rest with
  | [] => if n <=? 0 then Ok (Some cnt) else UB
  | c :: t =>
      if n <=? 0 then Ok (Some cnt)
      else match strchr valid c with
           | None => Ok None
           | Some _ => path_scan valid t (n - 1) (if c =? 47 then cnt + 1 else cnt)
           end
  end.

(** HDWallet.cpp:503-519: fills the array of indices [d]. *)
Fixpoint path_fill (valid rest : list Z) (n current : Z) (d : list Z) : outcome (option (list Z)) :=
  match rest with
  | [] => if n <=? 0 then Ok (Some d) else UB
  | c :: t =>
      if n <=? 0 then Ok (Some d)
      else if c =? 47 then path_fill valid t (n - 1) (current + 1) d
      else match strchr valid c with
           | None => UB
           | Some val =>
               let! x := aget d current in
               if HARDENED_INDEX <=? x then Ok None
               else
                 let! d' := aset d current (u32 (if val <? 10 then x * 10 + val else x + HARDENED_INDEX)) in
                 path_fill valid t (n - 1) current d'
           end
  end.

(** HDWallet.cpp:842-854: the loop of the public version. *)
Fixpoint path_fill_pub (valid rest : list Z) (n current : Z) (d : list Z) : outcome (option (list Z)) :=
  match rest with
  | [] => if n <=? 0 then Ok (Some d) else UB
  | c :: t =>
      if n <=? 0 then Ok (Some d)
      else if c =? 47 then
        let! x := aget d current in
        if HARDENED_INDEX <=? x then Ok None else path_fill_pub valid t (n - 1) (current + 1) d
      else match strchr valid c with
           | None => UB
           | Some val =>
               let! x := aget d current in
               let! d' := aset d current (u32 (x * 10 + val)) in
               path_fill_pub valid t (n - 1) current d'
           end
  end.

(** HDWallet.cpp:477-519 and 816-854: the indices a path stands for; [None] when the path is
    refused. [len] is a size_t and wraps around. The allocation of the
    array of indices (line 500) is taken to succeed; when it fails the path is refused. *)
Definition path_parse (valid : list Z) (fill : list Z -> list Z -> Z -> Z -> list Z -> outcome (option (list Z)))
  (path : list Z) : outcome (option (list Z)) :=
  let a := path ++ [0] in
  let m := nth 0 a 0 =? 109 in
  let off := if m then 2 else 0 in
  let n := u64 (len path - off) in
  let! last := aget a (u64 (off + n - 1)) in
  let n' := if last =? 47 then u64 (n - 1) else n in
  let cur := skipn (Z.to_nat off) a in
  let! c := path_scan valid cur n' 1 in
  match c with
  | None => Ok None
  | Some cnt => fill valid cur n' 0 (zeros (Z.to_nat cnt))
  end.

(** HDWallet.cpp:478 and 817. *)
Definition valid_prv : list Z := chars "0123456789/'h".
Definition valid_pub : list Z := chars "0123456789/".
Definition prv_path : list Z -> outcome (option (list Z)) := path_parse valid_prv path_fill.
Definition pub_path : list Z -> outcome (option (list Z)) := path_parse valid_pub path_fill_pub.

(** * Keys *)

(** Bitcoin.h:243-329 and the parser state of Streamable. The cached public key is
    [mulG hk_num] below. *)
Record hdpriv := mkHk { hk_num : list Z; hk_chain : list Z; hk_depth : Z; hk_fp : list Z; hk_child : Z;
  hk_net : network; hk_type : script_type; hk_prefix : list Z; hk_status : pstatus; hk_parsed : Z }.
(** Bitcoin.h:339-407. [hp_point] is the uncompressed point, 32 bytes for each coordinate. *)
Record hdpub := mkHp { hp_point : list Z; hp_chain : list Z; hp_depth : Z; hp_fp : list Z; hp_child : Z;
  hp_net : network; hp_type : script_type; hp_prefix : list Z; hp_status : pstatus; hp_parsed : Z }.

(** HDWallet.cpp:21-35: a fresh key. [prefix] is not initialised; it is read only after it is written. *)
Definition hk_new : hdpriv := mkHk (zeros 32) (zeros 32) 0 (zeros 4) 0 Mainnet UNKNOWN_TYPE (zeros 4) DONE 0.
(** HDWallet.cpp:669-678. *)
Definition hp_new : hdpub := mkHp (zeros 64) (zeros 32) 0 (zeros 4) 0 Mainnet UNKNOWN_TYPE (zeros 4) DONE 0.

(** HDWallet.cpp:92-107. *)
Definition prv_version (n : network) (t : script_type) : list Z :=
  match t with
  | P2WPKH => n_zprv n | P2SH_P2WPKH => n_yprv n | P2WSH => n_Zprv n | P2SH_P2WSH => n_Yprv n | _ => n_xprv n
  end.
(** HDWallet.cpp:334-349 and 528-543. *)
Definition pub_version (n : network) (t : script_type) : list Z :=
  match t with
  | P2WPKH => n_zpub n | P2SH_P2WPKH => n_ypub n | P2WSH => n_Zpub n | P2SH_P2WSH => n_Ypub n | _ => n_xpub n
  end.
(** HDWallet.cpp:110-112: hex[9..12]. *)
Definition be32 (x : Z) : list Z :=
  [Z.land (Z.shiftr x 24) 255; Z.land (Z.shiftr x 16) 255; Z.land (Z.shiftr x 8) 255; Z.land (Z.shiftr x 0) 255].

(** HDWallet.cpp:90-114: the array hex. *)
Definition hk_hex (k : hdpriv) : list Z :=
  prv_version (hk_net k) (hk_type k) ++ [hk_depth k] ++ hk_fp k ++ be32 (hk_child k) ++ hk_chain k ++ [0] ++ hk_num k.
(** HDWallet.cpp:526-551. *)
Definition hp_hex (k : hdpub) : list Z :=
  pub_version (hp_net k) (hp_type k) ++ [hp_depth k] ++ hp_fp k ++ be32 (hp_child k) ++ hp_chain k ++
  [2 + Z.land (nth 63 (hp_point k) 0) 1] ++ firstn 32 (hp_point k).
(** HDWallet.cpp:121-130 and 558-567. *)
Definition hk_to_stream (k : hdpriv) : serializer := fun cap offset =>
  let! w := write_loop 78 0 78 (hk_hex k) (mkWst offset cap []) in
  Ok (w_out w).
Definition hp_to_stream (k : hdpub) : serializer := fun cap offset =>
  let! w := write_loop 78 0 78 (hp_hex k) (mkWst offset cap []) in
  Ok (w_out w).

(** HDWallet.cpp:146-174: the first network with one of its five prefixes equal to [p],
    tried in the order x, y, z, Y, Z. *)
Definition beq (a b : list Z) : bool := if list_eq_dec Z.eq_dec a b then true else false.
Definition prv_type_in (n : network) (p : list Z) : option script_type :=
  if beq p (n_xprv n) then Some UNKNOWN_TYPE else if beq p (n_yprv n) then Some P2SH_P2WPKH
  else if beq p (n_zprv n) then Some P2WPKH else if beq p (n_Yprv n) then Some P2SH_P2WSH
  else if beq p (n_Zprv n) then Some P2WSH else None.
(** HDWallet.cpp:583-611. *)
Definition pub_type_in (n : network) (p : list Z) : option script_type :=
  if beq p (n_xpub n) then Some UNKNOWN_TYPE else if beq p (n_ypub n) then Some P2SH_P2WPKH
  else if beq p (n_zpub n) then Some P2WPKH else if beq p (n_Ypub n) then Some P2SH_P2WSH
  else if beq p (n_Zpub n) then Some P2WSH else None.
Fixpoint find_net (f : network -> list Z -> option script_type) (p : list Z) (l : list network) : option (network * script_type) :=
  match l with
  | [] => None
  | n :: t => match f n p with Some ty => Some (n, ty) | None => find_net f p t end
  end.

(** HDWallet.cpp:141-214: what is done with the byte at position [pos]. The consecutive
    loops of the code, each over its own range of positions, are one loop over positions
    here ([hk_loop]). The array indices are within the arrays for these positions. The
    prefix is looked up when its fourth byte has been read; the code repeats the lookup, with
    the same result, when a call starts at position 4. *)
Definition hk_store (k : hdpriv) (pos c : Z) : hdpriv :=
  let '(mkHk num ch dp fp cn net ty px st ps) := k in
  if pos <? 4 then
    let px' := set_nth px (Z.to_nat pos) c in
    if pos =? 3 then
      match find_net prv_type_in px' networks with
      | Some (net', ty') => mkHk num ch dp fp cn net' ty' px' st ps
      | None => mkHk num ch dp fp cn net ty px' FAILED ps
      end
    else mkHk num ch dp fp cn net ty px' st ps
  else if pos <? 5 then mkHk num ch c fp cn net ty px st ps
  else if pos <? 9 then mkHk num ch dp (set_nth fp (Z.to_nat (pos - 5)) c) cn net ty px st ps
  else if pos <? 13 then mkHk num ch dp fp (u32 (u32 (cn * 256) + c)) net ty px st ps
  else if pos <? 45 then mkHk num (set_nth ch (Z.to_nat (pos - 13)) c) dp fp cn net ty px st ps
  else if pos <? 46 then mkHk num ch dp fp cn net ty px (if c =? 0 then st else FAILED) ps
  else mkHk (set_nth num (Z.to_nat (pos - 46)) c) ch dp fp cn net ty px st ps.
(** HDWallet.cpp:141-214. *)
Fixpoint hk_loop (k : hdpriv) (pos : Z) (st : list Z) : hdpriv * Z * list Z :=
  match st with
  | [] => (k, pos, [])
  | c :: t =>
      if pos <? 78 then
        let k' := hk_store k pos c in
        match hk_status k' with
        | FAILED => (k', pos + 1, t)
        | _ => hk_loop k' (pos + 1) t
        end
      else (k, pos, st)
  end.
(** HDWallet.cpp:215-229. *)
Definition hk_finish (k : hdpriv) (pos : Z) : hdpriv :=
  let '(mkHk num ch dp fp cn net ty px st ps) := k in
  if pos =? 78 then
    mkHk (reduce_num num) ch dp fp cn net ty px (if beq num (zeros 32) then FAILED else DONE) pos
  else mkHk num ch dp fp cn net ty px st pos.
(** HDWallet.cpp:138-229. *)
Definition hk_body (k : hdpriv) (st : list Z) : hdpriv * Z * list Z :=
  let '(k', pos, rest) := hk_loop k (hk_parsed k) st in
  match hk_status k' with
  | FAILED => (k', pos - hk_parsed k, rest)
  | _ => (hk_finish k' pos, pos - hk_parsed k, rest)
  end.
Definition hk_start (k : hdpriv) (ps : Z) : hdpriv :=
  mkHk (hk_num k) (hk_chain k) (hk_depth k) (hk_fp k) (hk_child k) (hk_net k) (hk_type k) (hk_prefix k) INCOMPLETE ps.
(** HDWallet.cpp:131-230 [HDPrivateKey::from_stream]. *)
Definition hk_parse (k : hdpriv) (st : list Z) : hdpriv * Z * list Z :=
  match hk_status k with
  | FAILED => (k, 0, st)
  | DONE => hk_body (hk_start k 0) st
  | INCOMPLETE => hk_body (hk_start k (hk_parsed k)) st
  end.

(** HDWallet.cpp:578-642, like [hk_store]. *)
Definition hp_store (k : hdpub) (pos c : Z) : hdpub :=
  let '(mkHp pt ch dp fp cn net ty px st ps) := k in
  if pos <? 4 then
    let px' := set_nth px (Z.to_nat pos) c in
    if pos =? 3 then
      match find_net pub_type_in px' networks with
      | Some (net', ty') => mkHp pt ch dp fp cn net' ty' px' st ps
      | None => mkHp pt ch dp fp cn net ty px' FAILED ps
      end
    else mkHp pt ch dp fp cn net ty px' st ps
  else if pos <? 5 then mkHp pt ch c fp cn net ty px st ps
  else if pos <? 9 then mkHp pt ch dp (set_nth fp (Z.to_nat (pos - 5)) c) cn net ty px st ps
  else if pos <? 13 then mkHp pt ch dp fp (u32 (u32 (cn * 256) + c)) net ty px st ps
  else if pos <? 45 then mkHp pt (set_nth ch (Z.to_nat (pos - 13)) c) dp fp cn net ty px st ps
  else mkHp (set_nth pt (Z.to_nat (pos - 45)) c) ch dp fp cn net ty px st ps.
Fixpoint hp_loop (k : hdpub) (pos : Z) (st : list Z) : hdpub * Z * list Z :=
  match st with
  | [] => (k, pos, [])
  | c :: t =>
      if pos <? 78 then
        let k' := hp_store k pos c in
        match hp_status k' with
        | FAILED => (k', pos + 1, t)
        | _ => hp_loop k' (pos + 1) t
        end
      else (k, pos, st)
  end.
Definition hp_start (k : hdpub) (ps : Z) : hdpub :=
  mkHp (hp_point k) (hp_chain k) (hp_depth k) (hp_fp k) (hp_child k) (hp_net k) (hp_type k) (hp_prefix k) INCOMPLETE ps.

Section PubParse.
(** utility/trezor/ecdsa.c:854-867 [ecdsa_uncompress_pubkey] on the 33 bytes [arr] of the
    caller: the 64 bytes that end up in buf+1, given what was there ([garbage]); UB when it
    reads more than 33 bytes. BitcoinCurve.cpp:108-116 [isValid] on a compressed point. *)
Variable uncompress : list Z -> list Z -> outcome (list Z).
Variable pt_valid : list Z -> bool.
(** HDWallet.cpp:644-656. *)
Definition hp_finish (garbage : list Z) (k : hdpub) (pos : Z) : outcome hdpub :=
  let '(mkHp pt ch dp fp cn net ty px st ps) := k in
  if pos =? 78 then
    let! pt' := uncompress (firstn 33 pt) garbage in
    Ok (mkHp pt' ch dp fp cn net ty px (if pt_valid pt' then DONE else FAILED) pos)
  else Ok (mkHp pt ch dp fp cn net ty px st pos).
(** HDWallet.cpp:575-656. *)
Definition hp_body (garbage : list Z) (k : hdpub) (st : list Z) : outcome (hdpub * Z * list Z) :=
  let '(k', pos, rest) := hp_loop k (hp_parsed k) st in
  match hp_status k' with
  | FAILED => Ok (k', pos - hp_parsed k, rest)
  | _ => let! k'' := hp_finish garbage k' pos in Ok (k'', pos - hp_parsed k, rest)
  end.
(** HDWallet.cpp:568-657 [HDPublicKey::from_stream]. *)
Definition hp_parse (garbage : list Z) (k : hdpub) (st : list Z) : outcome (hdpub * Z * list Z) :=
  match hp_status k with
  | FAILED => Ok (k, 0, st)
  | DONE => hp_body garbage (hp_start k 0) st
  | INCOMPLETE => hp_body garbage (hp_start k (hp_parsed k)) st
  end.
End PubParse.

Section Text.
Variable doubleSha : list Z -> list Z.
(** HDWallet.cpp:296-300 [xprv] and 724-728 [xpub]; [out] is the caller's buffer. *)
Definition xprv (k : hdpriv) (out : list Z) : Z * list Z := toBase58Check doubleSha (hk_hex k) out.
Definition xpub_text (k : hdpub) (out : list Z) : Z * list Z := toBase58Check doubleSha (hp_hex k) out.
(** HDWallet.cpp:231-241 [HDPrivateKey::from_str]: the returned length and the key. *)
Definition hk_from_str (s : list Z) : Z * hdpriv :=
  let '(l, arr) := fromBase58Check doubleSha s (zeros 85) in
  if l =? 0 then (0, hk_new)
  else let '(k, _, _) := hk_parse hk_new arr in (len s, k).
(** HDWallet.cpp:658-667 [HDPublicKey::from_str]: no initialisation of the key [k]. *)
Definition hp_from_str uncompress pt_valid (garbage : list Z) (k : hdpub) (s : list Z) : outcome (Z * hdpub) :=
  let '(l, arr) := fromBase58Check doubleSha s (zeros 85) in
  if l =? 0 then Ok (0, k)
  else let! r := hp_parse uncompress pt_valid garbage k arr in
       let '(k', _, _) := r in Ok (len s, k').
End Text.

(** * Derivation *)
Section Derive.
(** Hash.cpp: HMAC-SHA512 of a message under a key, 64 bytes; Hash160, 20 bytes. *)
Variable hmac512 : list Z -> list Z -> list Z.
Variable hash160 : list Z -> list Z.
(** BitcoinCurve.cpp:271-291 (a scalar times the generator) and 121-139 (sum of two
    points), on 32-byte scalars and 64-byte points. *)
Variable mulG : list Z -> list Z.
Variable padd : list Z -> list Z -> list Z.

(** BitcoinCurve.cpp:62-89: [sec] of a compressed point. *)
Definition sec_of (pt : list Z) : list Z := (2 + Z.land (nth 63 pt 0) 1) :: firstn 32 pt.
(** BitcoinCurve.cpp:198-207: scalar sum, [bn_addmod] and [bn_mod] on the values. *)
Definition scalar_add (a b : list Z) : list Z := be_write 32 ((be_val 256 a + be_val 256 b) mod secp_order).

(** HDWallet.cpp:242-257 [fromSeed]. *)
Definition from_seed (seed : list Z) (net : network) : hdpriv :=
  let raw := hmac512 (chars "Bitcoin seed") seed in
  mkHk (firstn 32 raw) (skipn 32 raw) 0 (zeros 4) 0 net UNKNOWN_TYPE (zeros 4) DONE 0.

(** HDWallet.cpp:378-381 [xpub]. *)
Definition to_pub (k : hdpriv) : hdpub :=
  mkHp (mulG (hk_num k)) (hk_chain k) (hk_depth k) (hk_fp k) (hk_child k) (hk_net k) (hk_type k) (zeros 4) DONE 0.

(** HDWallet.cpp:400-438: type and network of a child; [index] already has the hardened bit. *)
Definition child_type (depth : Z) (ty : script_type) (hardened : bool) (index : Z) : script_type :=
  let t1 := if hardened && (depth =? 0) then
      if index =? HARDENED_INDEX + 44 then P2PKH else if index =? HARDENED_INDEX + 49 then P2SH_P2WPKH
      else if index =? HARDENED_INDEX + 84 then P2WPKH else if index =? HARDENED_INDEX + 48 then MULTISIG
      else if index =? HARDENED_INDEX + 45 then P2SH else ty
    else ty in
  if hardened && (depth =? 3) && script_type_eqb ty MULTISIG then
    if index =? HARDENED_INDEX + 1 then P2SH_P2WSH else if index =? HARDENED_INDEX + 2 then P2WSH else t1
  else t1.
Definition child_net (depth : Z) (net : network) (hardened : bool) (index : Z) : network :=
  if hardened && (depth =? 1) then
    if index =? HARDENED_INDEX + 1 then Testnet else if index =? HARDENED_INDEX then Mainnet else net
  else net.

(** HDWallet.cpp:382-464 [HDPrivateKey::child]. *)
Definition hk_child_of (k : hdpriv) (index : Z) (hardened : bool) : hdpriv :=
  let hardened := hardened || (HARDENED_INDEX <=? index) in
  let sec := sec_of (mulG (hk_num k)) in
  let index := if hardened && (index <? HARDENED_INDEX) then index + HARDENED_INDEX else index in
  let data := (if hardened then 0 :: hk_num k else sec) ++ be32 index in
  let raw := hmac512 (hk_chain k) data in
  let r := reduce_num (firstn 32 raw) in
  mkHk (scalar_add r (hk_num k)) (skipn 32 raw) (u8 (hk_depth k + 1)) (firstn 4 (hash160 sec)) index
    (child_net (hk_depth k) (hk_net k) hardened index) (child_type (hk_depth k) (hk_type k) hardened index)
    (zeros 4) DONE 0.
(** HDWallet.cpp:466-476. *)
Definition hk_hardened_child (k : hdpriv) (index : Z) : hdpriv := hk_child_of k index true.
Definition hk_derive (k : hdpriv) (l : list Z) : hdpriv := fold_left (fun k i => hk_child_of k i false) l k.
(** HDWallet.cpp:477-523. *)
Definition hk_derive_path (k : hdpriv) (path : list Z) : outcome hdpriv :=
  let! d := prv_path path in
  match d with
  | None => Ok hk_new
  | Some l => Ok (hk_derive k l)
  end.

(** HDWallet.cpp:776-808 [HDPublicKey::child]. *)
Definition hp_child_of (k : hdpub) (index : Z) : hdpub :=
  let sec := sec_of (hp_point k) in
  let raw := hmac512 (hp_chain k) (sec ++ be32 index) in
  let r := reduce_num (firstn 32 raw) in
  mkHp (padd (mulG r) (hp_point k)) (skipn 32 raw) (u8 (hp_depth k + 1)) (firstn 4 (hash160 sec)) index
    (hp_net k) (hp_type k) (zeros 4) DONE 0.
(** HDWallet.cpp:809-815. *)
Definition hp_derive (k : hdpub) (l : list Z) : hdpub := fold_left hp_child_of l k.
(** HDWallet.cpp:816-858. *)
Definition hp_derive_path (k : hdpub) (path : list Z) : outcome hdpub :=
  let! d := pub_path path in
  match d with
  | None => Ok hp_new
  | Some l => Ok (hp_derive k l)
  end.
End Derive.
