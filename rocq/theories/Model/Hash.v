(** Hash functions: src/utility/trezor/{sha2.c,sha2.h,ripemd160.c,hmac.c,pbkdf2.c}, src/Hash.cpp,
    and the seed loops of src/HDWallet.cpp and trezor/bip39.c.

    Machine words are [Z]; unsigned arithmetic wraps explicitly. The machine is little endian
    (sha2.h:61-63), SHA2_UNROLL_TRANSFORM is not defined. SHA-256 and SHA-512 are the same text
    in sha2.c up to word size, constants, rotation amounts and the bit counter; they are modelled
    once over a record of those, and every comment cites both copies. *)
From Verif Require Import Base.Bytes Base.Groups.
Open Scope Z_scope.

(** memcpy(arr+off, l, len l). The buffer is a plain list; a copy past its end would lengthen it
    (the theorems about the hash state keep its length fixed). *)
Definition blit (arr : list Z) (off : nat) (l : list Z) : list Z :=
  firstn off arr ++ l ++ skipn (off + length l) arr.
(** memzero(arr+off, n). *)
Definition wipe (arr : list Z) (off n : nat) : list Z := blit arr off (zeros n).

(** The [n] bytes of a word in memory (little endian). *)
Fixpoint mem_bytes (n : nat) (x : Z) : list Z :=
  match n with
  | O => []
  | S m => x mod 256 :: mem_bytes m (x / 256)
  end.
(** A byte array seen as an array of [n]-byte words (the uint32_t / uint64_t buffers). *)
Definition mem_words (n : nat) (arr : list Z) : list Z := map (le_val 256) (groups n arr).

(** sha2.h:66-70. *)
Definition REVERSE32 (w : Z) : Z :=
  let tmp := Z.lor (Z.shiftr w 16) (u32 (Z.shiftl w 16)) in
  Z.lor (Z.shiftr (Z.land tmp 0xff00ff00) 8) (u32 (Z.shiftl (Z.land tmp 0x00ff00ff) 8)).
(** sha2.h:71-78. *)
Definition REVERSE64 (w : Z) : Z :=
  let tmp := Z.lor (Z.shiftr w 32) (u64 (Z.shiftl w 32)) in
  let tmp := Z.lor (Z.shiftr (Z.land tmp 0xff00ff00ff00ff00) 8)
                   (u64 (Z.shiftl (Z.land tmp 0x00ff00ff00ff00ff) 8)) in
  Z.lor (Z.shiftr (Z.land tmp 0xffff0000ffff0000) 16)
        (u64 (Z.shiftl (Z.land tmp 0x0000ffff0000ffff) 16)).

(** * SHA-2 *)

(** sha2.c:179-196. *)
Definition K256 : list Z :=
    [0x428a2f98; 0x71374491; 0xb5c0fbcf; 0xe9b5dba5;
     0x3956c25b; 0x59f111f1; 0x923f82a4; 0xab1c5ed5;
     0xd807aa98; 0x12835b01; 0x243185be; 0x550c7dc3;
     0x72be5d74; 0x80deb1fe; 0x9bdc06a7; 0xc19bf174;
     0xe49b69c1; 0xefbe4786; 0x0fc19dc6; 0x240ca1cc;
     0x2de92c6f; 0x4a7484aa; 0x5cb0a9dc; 0x76f988da;
     0x983e5152; 0xa831c66d; 0xb00327c8; 0xbf597fc7;
     0xc6e00bf3; 0xd5a79147; 0x06ca6351; 0x14292967;
     0x27b70a85; 0x2e1b2138; 0x4d2c6dfc; 0x53380d13;
     0x650a7354; 0x766a0abb; 0x81c2c92e; 0x92722c85;
     0xa2bfe8a1; 0xa81a664b; 0xc24b8b70; 0xc76c51a3;
     0xd192e819; 0xd6990624; 0xf40e3585; 0x106aa070;
     0x19a4c116; 0x1e376c08; 0x2748774c; 0x34b0bcb5;
     0x391c0cb3; 0x4ed8aa4a; 0x5b9cca4f; 0x682e6ff3;
     0x748f82ee; 0x78a5636f; 0x84c87814; 0x8cc70208;
     0x90befffa; 0xa4506ceb; 0xbef9a3f7; 0xc67178f2].

(** sha2.c:199-208. *)
Definition H256 : list Z :=
    [0x6a09e667; 0xbb67ae85; 0x3c6ef372; 0xa54ff53a;
     0x510e527f; 0x9b05688c; 0x1f83d9ab; 0x5be0cd19].

(** sha2.c:211-252. *)
Definition K512 : list Z :=
    [0x428a2f98d728ae22; 0x7137449123ef65cd;
     0xb5c0fbcfec4d3b2f; 0xe9b5dba58189dbbc;
     0x3956c25bf348b538; 0x59f111f1b605d019;
     0x923f82a4af194f9b; 0xab1c5ed5da6d8118;
     0xd807aa98a3030242; 0x12835b0145706fbe;
     0x243185be4ee4b28c; 0x550c7dc3d5ffb4e2;
     0x72be5d74f27b896f; 0x80deb1fe3b1696b1;
     0x9bdc06a725c71235; 0xc19bf174cf692694;
     0xe49b69c19ef14ad2; 0xefbe4786384f25e3;
     0x0fc19dc68b8cd5b5; 0x240ca1cc77ac9c65;
     0x2de92c6f592b0275; 0x4a7484aa6ea6e483;
     0x5cb0a9dcbd41fbd4; 0x76f988da831153b5;
     0x983e5152ee66dfab; 0xa831c66d2db43210;
     0xb00327c898fb213f; 0xbf597fc7beef0ee4;
     0xc6e00bf33da88fc2; 0xd5a79147930aa725;
     0x06ca6351e003826f; 0x142929670a0e6e70;
     0x27b70a8546d22ffc; 0x2e1b21385c26c926;
     0x4d2c6dfc5ac42aed; 0x53380d139d95b3df;
     0x650a73548baf63de; 0x766a0abb3c77b2a8;
     0x81c2c92e47edaee6; 0x92722c851482353b;
     0xa2bfe8a14cf10364; 0xa81a664bbc423001;
     0xc24b8b70d0f89791; 0xc76c51a30654be30;
     0xd192e819d6ef5218; 0xd69906245565a910;
     0xf40e35855771202a; 0x106aa07032bbd1b8;
     0x19a4c116b8d2d0c8; 0x1e376c085141ab53;
     0x2748774cdf8eeb99; 0x34b0bcb5e19b48a8;
     0x391c0cb3c5c95a63; 0x4ed8aa4ae3418acb;
     0x5b9cca4f7763e373; 0x682e6ff3d6b2b8a3;
     0x748f82ee5defb2fc; 0x78a5636f43172f60;
     0x84c87814a1f0ab72; 0x8cc702081a6439ec;
     0x90befffa23631e28; 0xa4506cebde82bde9;
     0xbef9a3f7b2c67915; 0xc67178f2e372532b;
     0xca273eceea26619c; 0xd186b8c721c0c207;
     0xeada7dd6cde0eb1e; 0xf57d4f7fee6ed178;
     0x06f067aa72176fba; 0x0a637dc5a2c898a6;
     0x113f9804bef90dae; 0x1b710b35131c471b;
     0x28db77f523047d84; 0x32caab7b40c72493;
     0x3c9ebe0a15c9bebc; 0x431d67c49c100d4c;
     0x4cc5d4becb3e42b6; 0x597f299cfc657e2a;
     0x5fcb6fab3ad6faec; 0x6c44198c4a475817].

(** sha2.c:255-264. *)
Definition H512 : list Z :=
    [0x6a09e667f3bcc908; 0xbb67ae8584caa73b;
     0x3c6ef372fe94f82b; 0xa54ff53a5f1d36f1;
     0x510e527fade682d1; 0x9b05688c2b3e6c1f;
     0x1f83d9abfb41bd6b; 0x5be0cd19137e2179].

(** What distinguishes SHA-256 from SHA-512 in sha2.c: word size in bits and bytes, number of
    rounds, constants, initial value, rotation and shift amounts (sha2.c:147-160), the endian
    macro, the addition to the bit counter and the two words it becomes at the end. *)
Record sha2 := mkSha2 {
  s_w : Z; s_bytes : nat; s_rounds : nat;
  s_K : list Z; s_H : list Z;
  s_S0 : Z * Z * Z; s_S1 : Z * Z * Z;          (* Sigma0, Sigma1: three rotations *)
  s_s0 : Z * Z * Z; s_s1 : Z * Z * Z;          (* sigma0, sigma1: two rotations and a shift *)
  s_rev : Z -> Z;
  s_add : Z * Z -> Z -> Z * Z;                 (* (bitcount[0], bitcount[1]) *)
  s_len : Z * Z -> list Z }.

(** context->bitcount += n (sha2.c:448, 461, 477, 484); bitcount is one uint64_t (sha2.h:46),
    the second component is unused. *)
Definition add_count64 (c : Z * Z) (n : Z) : Z * Z := (u64 (fst c + n), snd c).
(** ADDINC128, sha2.c:105-110. *)
Definition add_count128 (c : Z * Z) (n : Z) : Z * Z :=
  let lo := u64 (fst c + n) in
  (lo, if lo <? n then u64 (snd c + 1) else snd c).
(** sha2.c:524-525. *)
Definition len_words64 (c : Z * Z) : list Z := [Z.shiftr (fst c) 32; Z.land (fst c) 0xffffffff].
(** sha2.c:827-828. *)
Definition len_words128 (c : Z * Z) : list Z := [snd c; fst c].

(** sha2.c:147-150. *)
Definition SHA_256 : sha2 :=
  mkSha2 32 4 64 K256 H256 (2, 13, 22) (6, 11, 25) (7, 18, 3) (17, 19, 10)
         REVERSE32 add_count64 len_words64.
(** sha2.c:153-156. *)
Definition SHA_512 : sha2 :=
  mkSha2 64 8 80 K512 H512 (28, 34, 39) (14, 18, 41) (1, 8, 7) (19, 61, 6)
         REVERSE64 add_count128 len_words128.

(** Context: sha2.h:44-53. [h_buf] is the memory of the word array [buffer]. *)
Record hctx := mkHctx { h_state : list Z; h_count : Z * Z; h_buf : list Z }.

Section Sha2.
Variable p : sha2.
Notation w := (s_w p).

Definition word (x : Z) : Z := x mod 2 ^ w.
(** ROTR32 / ROTR64, sha2.c:133, 135. *)
Definition ROTR (b x : Z) : Z := Z.lor (Z.shiftr x b) (word (Z.shiftl x (w - b))).
(** sha2.c:140-141. *)
Definition Ch (x y z : Z) : Z := Z.lxor (Z.land x y) (Z.land (word (Z.lnot x)) z).
Definition Maj (x y z : Z) : Z := Z.lxor (Z.lxor (Z.land x y) (Z.land x z)) (Z.land y z).
(** sha2.c:147-148, 153-154. *)
Definition Sigma (r : Z * Z * Z) (x : Z) : Z :=
  let '(a, b, c) := r in Z.lxor (Z.lxor (ROTR a x) (ROTR b x)) (ROTR c x).
(** sha2.c:149-150, 155-156. *)
Definition sigma (r : Z * Z * Z) (x : Z) : Z :=
  let '(a, b, c) := r in Z.lxor (Z.lxor (ROTR a x) (ROTR b x)) (Z.shiftr x c).

(** sha2.c:379-388, 401-411 (684-693, 706-716): one round on the registers a..h, with the
    constant [k] and the message word [x]. The sums wrap. *)
Definition sha2_round (k x : Z) (r : list Z) : list Z :=
  match r with
  | [a; b; c; d; e; f; g; h] =>
      let T1 := word (h + Sigma (s_S1 p) e + Ch e f g + k + x) in
      let T2 := word (Sigma (s_S0 p) a + Maj a b c) in
      [word (T1 + T2); a; b; c; word (d + T1); e; f; g]
  | _ => r
  end.
(** sha2.c:376-391 (681-696): the first loop, [n] more rounds from [j] on; [W] is W256/W512. *)
Fixpoint sha2_first (n j : nat) (data W r : list Z) : list Z * list Z :=
  match n with
  | O => (W, r)
  | S n' =>
      let x := nth j data 0 in
      sha2_first n' (S j) data (set_nth W j x) (sha2_round (nth j (s_K p) 0) x r)
  end.
(** sha2.c:393-414 (698-719): the second loop. *)
Fixpoint sha2_second (n j : nat) (W r : list Z) : list Z :=
  match n with
  | O => r
  | S n' =>
      let s0 := sigma (s_s0 p) (nth ((j + 1) mod 16) W 0) in
      let s1 := sigma (s_s1 p) (nth ((j + 14) mod 16) W 0) in
      let x := word (nth (j mod 16) W 0 + (s1 + nth ((j + 9) mod 16) W 0 + s0)) in
      sha2_second n' (S j) (set_nth W (j mod 16) x) (sha2_round (nth j (s_K p) 0) x r)
  end.
Fixpoint add_words (l r : list Z) : list Z :=
  match l, r with
  | x :: l', y :: r' => word (x + y) :: add_words l' r'
  | _, _ => []
  end.
(** sha2.c:361-428 (666-733). W256[16] is uninitialised at first; every entry is written before
    it is read. *)
Definition sha2_Transform (st data : list Z) : list Z :=
  let '(W, r) := sha2_first 16 0 data (zeros 16) st in
  add_words st (sha2_second (s_rounds p - 16) 16 W r).

(** SHA256_BLOCK_LENGTH, sha2.h:37, 40; SHA256_SHORT_BLOCK_LENGTH, sha2.c:97-98. *)
Definition block_len : nat := 16 * s_bytes p.
Definition short_len : nat := block_len - 2 * s_bytes p.

(** sha2.c:273-280, 581-588. *)
Definition sha2_Init : hctx := mkHctx (s_H p) (0, 0) (zeros block_len).

(** sha2.c:451-457, 502-509 (756-762, 805-812): byte order of the whole buffer and Transform. *)
Definition sha2_block (c : hctx) : hctx :=
  let ws := map (s_rev p) (mem_words (s_bytes p) (h_buf c)) in
  mkHctx (sha2_Transform (h_state c) ws) (h_count c) (flat_map (mem_bytes (s_bytes p)) ws).
Definition sha2_count (c : hctx) (n : Z) : hctx :=
  mkHctx (h_state c) (s_add p (h_count c) n) (h_buf c).
Definition sha2_copy (c : hctx) (off : nat) (l : list Z) : hctx :=
  mkHctx (h_state c) (h_count c) (blit (h_buf c) off l).

(** sha2.c:467-485 (772-790): whole blocks, then the rest. [fuel] bounds the loop. *)
Fixpoint sha2_blocks (fuel : nat) (c : hctx) (data : list Z) : hctx :=
  match fuel with
  | O => c
  | S fuel' =>
      if Z.of_nat block_len <=? len data then
        let c1 := sha2_block (sha2_copy c 0 (firstn block_len data)) in
        sha2_blocks fuel' (sha2_count c1 (Z.of_nat block_len * 8)) (skipn block_len data)
      else if 0 <? len data then
        sha2_count (sha2_copy c 0 data) (u64 (len data * 8))
      else c
  end.
(** sha2.c:432-488 (737-793). *)
Definition sha2_Update (c : hctx) (data : list Z) : hctx :=
  if len data =? 0 then c
  else
    let usedspace := u32 (Z.shiftr (fst (h_count c)) 3 mod Z.of_nat block_len) in
    if 0 <? usedspace then
      let freespace := Z.of_nat block_len - usedspace in
      if freespace <=? len data then
        let fill := firstn (Z.to_nat freespace) data in
        let c1 := sha2_count (sha2_copy c (Z.to_nat usedspace) fill) (freespace * 8) in
        sha2_blocks (S (length data)) (sha2_block c1) (skipn (Z.to_nat freespace) data)
      else sha2_count (sha2_copy c (Z.to_nat usedspace) data) (u64 (len data * 8))
    else sha2_blocks (S (length data)) c data.

(** sha2.c:490-542, 795-851: the digest and the wiped context. *)
Definition sha2_Final (c : hctx) : list Z * hctx :=
  let usedspace := Z.to_nat (Z.shiftr (fst (h_count c)) 3 mod Z.of_nat block_len) in
  let c := sha2_copy c usedspace [0x80] in
  let usedspace := S usedspace in
  let '(c, usedspace) :=
    if Nat.ltb short_len usedspace then
      (sha2_block (mkHctx (h_state c) (h_count c)
                     (wipe (h_buf c) usedspace (block_len - usedspace))), O)
    else (c, usedspace) in
  let buf := wipe (h_buf c) usedspace (short_len - usedspace) in
  let ws := map (s_rev p) (firstn 14 (mem_words (s_bytes p) buf)) ++ s_len p (h_count c) in
  let st := sha2_Transform (h_state c) ws in
  (flat_map (mem_bytes (s_bytes p)) (map (s_rev p) st),
   mkHctx (zeros 8) (0, 0) (zeros block_len)).

(** sha2.c:564-569, 873-878 (sha256_Raw, sha512_Raw), and Hash.cpp:11-15 with Hash.cpp:58-61,
    173-176: one call. (HashAlgorithm::begin, Hash.h:19, is empty and not virtual, so hashData
    hashes with the context as the constructor left it.) *)
Definition sha2_hash (data : list Z) : list Z := fst (sha2_Final (sha2_Update sha2_Init data)).

(** * HMAC (hmac.c) *)

(** hmac.c:33-49 (108-124): the pads. keylen is a uint32_t. *)
Definition hmac_key (key : list Z) : list Z :=
  let keylen := u32 (len key) in
  let key := firstn (Z.to_nat keylen) key in
  if Z.of_nat block_len <? keylen
  then sha2_hash key ++ zeros (block_len - 8 * s_bytes p)
  else key ++ zeros (block_len - length key).
(** HMAC context: the running hash and o_key_pad. *)
Record hmctx := mkHm { hm_ctx : hctx; hm_opad : list Z }.
Definition hmac_Init (key : list Z) : hmctx :=
  let k := hmac_key key in
  mkHm (sha2_Update sha2_Init (map (fun b => Z.lxor b 0x36) k)) (map (fun b => Z.lxor b 0x5c) k).
(** Hash.cpp:105-108, 193-196 (write after beginHMAC); hmac.c:51-54, 126-129 passes a uint32_t
    length. *)
Definition hmac_write (m : hmctx) (data : list Z) : hmctx :=
  mkHm (sha2_Update (hm_ctx m) data) (hm_opad m).
Definition hmac_Update (m : hmctx) (msg : list Z) : hmctx :=
  hmac_write m (firstn (Z.to_nat (u32 (len msg))) msg).
(** hmac.c:56-64, 131-139. *)
Definition hmac_Final (m : hmctx) : list Z :=
  let inner := fst (sha2_Final (hm_ctx m)) in
  fst (sha2_Final (sha2_Update (sha2_Update sha2_Init (hm_opad m)) inner)).
(** hmac.c:66-72, 141-147; Hash.cpp:94-97, 211-214. *)
Definition hmac_once (key msg : list Z) : list Z := hmac_Final (hmac_Update (hmac_Init key) msg).

(** A word made of one repeated byte (0x5c5c5c5c and so on). *)
Definition rep_word (b : Z) : Z := le_val 256 (repeat b (s_bytes p)).
(** hmac.c:74-106, 149-181: (opad_digest, ipad_digest). *)
Definition hmac_prepare (key : list Z) : list Z * list Z :=
  let kp := map (fun x => Z.lxor (s_rev p x) (rep_word 0x5c)) (mem_words (s_bytes p) (hmac_key key)) in
  let od := sha2_Transform (s_H p) kp in
  let kp := map (fun x => Z.lxor (Z.lxor x (rep_word 0x5c)) (rep_word 0x36)) kp in
  (od, sha2_Transform (s_H p) kp).

(** * PBKDF2 (pbkdf2.c) *)

Record pbctx := mkPb { pb_odig : list Z; pb_idig : list Z; pb_f : list Z; pb_g : list Z;
                       pb_first : Z }.
(** state_out = g: the first eight words of g are replaced. *)
Definition pb_step (st g : list Z) : list Z := sha2_Transform st g ++ skipn 8 g.
(** pbkdf2.c:30-55, 104-130. [junk]: ctx.buffer is not initialised. *)
Definition pbkdf2_Init (junk pass salt : list Z) (blocknr : Z) : pbctx :=
  let '(od, id) := hmac_prepare pass in
  let c := mkHctx id (Z.of_nat block_len * 8, 0) junk in
  let c := sha2_Update (sha2_Update c salt) (mem_bytes 4 (REVERSE32 blocknr)) in
  let dig := fst (sha2_Final c) in
  let g := map (s_rev p) (mem_words (s_bytes p) dig)
           ++ [2 ^ (w - 1)] ++ zeros 6 ++ [Z.of_nat (block_len + 8 * s_bytes p) * 8] in
  let g := pb_step od g in
  mkPb od id (firstn 8 g) g 1.
(** pbkdf2.c:57-67, 132-142. *)
Definition pb_iter (c : pbctx) : pbctx :=
  let g := pb_step (pb_odig c) (pb_step (pb_idig c) (pb_g c)) in
  mkPb (pb_odig c) (pb_idig c) (map (fun ab => Z.lxor (fst ab) (snd ab)) (combine (pb_f c) g)) g
       (pb_first c).
Definition pbkdf2_Update (c : pbctx) (iterations : Z) : pbctx :=
  let c := Nat.iter (Z.to_nat (iterations - pb_first c)) pb_iter c in
  mkPb (pb_odig c) (pb_idig c) (pb_f c) (pb_g c) 0.
(** pbkdf2.c:69-78, 144-153. *)
Definition pbkdf2_Final (c : pbctx) : list Z :=
  flat_map (mem_bytes (s_bytes p)) (map (s_rev p) (pb_f c)).
(** pbkdf2.c:89-101, 164-176: blocks [blocknr], ..., [n] blocks in all, the last one cut to
    [last]. *)
Fixpoint pbkdf2_loop (n : nat) (junk pass salt : list Z) (iterations blocknr last : Z) : list Z :=
  match n with
  | O => []
  | S n' =>
      let digest := pbkdf2_Final (pbkdf2_Update (pbkdf2_Init junk pass salt blocknr) iterations) in
      match n' with
      | O => firstn (Z.to_nat last) digest
      | _ => digest ++ pbkdf2_loop n' junk pass salt iterations (u32 (blocknr + 1)) last
      end
  end.
(** pbkdf2.c:80-102, 155-177. *)
Definition pbkdf2 (junk pass salt : list Z) (iterations keylen : Z) : list Z :=
  let dlen := Z.of_nat (8 * s_bytes p) in
  let last := keylen mod dlen in
  let count := keylen / dlen in
  let '(count, last) := if last =? 0 then (count, dlen) else (count + 1, last) in
  pbkdf2_loop (Z.to_nat count) junk pass salt iterations 1 last.
End Sha2.

(** * RIPEMD-160 (ripemd160.c) *)

(** The registers of ripemd160_process. *)
Definition rA : nat := 0. Definition rB : nat := 1. Definition rC : nat := 2.
Definition rD : nat := 3. Definition rE : nat := 4.

(** ripemd160.c:102-108. [~x] on uint32_t. *)
Definition not32 (x : Z) : Z := u32 (Z.lnot x).
Definition F1 (x y z : Z) : Z := Z.lxor (Z.lxor x y) z.
Definition F2 (x y z : Z) : Z := Z.lor (Z.land x y) (Z.land (not32 x) z).
Definition F3 (x y z : Z) : Z := Z.lxor (Z.lor x (not32 y)) z.
Definition F4 (x y z : Z) : Z := Z.lor (Z.land x z) (Z.land y (not32 z)).
Definition F5 (x y z : Z) : Z := Z.lxor x (Z.lor y (not32 z)).
Definition S32 (x n : Z) : Z := Z.lor (u32 (Z.shiftl x n)) (Z.shiftr x (32 - n)).

(** ripemd160.c:110-113. [roles]: which register plays a, b, c, d, e. *)
Definition rmd_P (X : list Z) (F : Z -> Z -> Z -> Z) (K : Z)
    (roles : list nat) (rs : nat * Z) (R : list Z) : list Z :=
  let reg i := nth (nth i roles O) R 0 in
  let a := u32 (reg 0%nat + F (reg 1%nat) (reg 2%nat) (reg 3%nat) + nth (fst rs) X 0 + K) in
  let R1 := set_nth R (nth 0 roles O) (u32 (S32 a (snd rs) + reg 4%nat)) in
  set_nth R1 (nth 2 roles O) (S32 (reg 2%nat) 10).

(** ripemd160.c:123-138, 148-163, 173-188, 198-213, 223-238: the registers, (r, s), (rp, sp). *)
Definition p2_lines1 : list (list nat * (nat * Z) * (nat * Z)) :=
    [([rA; rB; rC; rD; rE], (0%nat, 11), (5%nat, 8));
     ([rE; rA; rB; rC; rD], (1%nat, 14), (14%nat, 9));
     ([rD; rE; rA; rB; rC], (2%nat, 15), (7%nat, 9));
     ([rC; rD; rE; rA; rB], (3%nat, 12), (0%nat, 11));
     ([rB; rC; rD; rE; rA], (4%nat, 5), (9%nat, 13));
     ([rA; rB; rC; rD; rE], (5%nat, 8), (2%nat, 15));
     ([rE; rA; rB; rC; rD], (6%nat, 7), (11%nat, 15));
     ([rD; rE; rA; rB; rC], (7%nat, 9), (4%nat, 5));
     ([rC; rD; rE; rA; rB], (8%nat, 11), (13%nat, 7));
     ([rB; rC; rD; rE; rA], (9%nat, 13), (6%nat, 7));
     ([rA; rB; rC; rD; rE], (10%nat, 14), (15%nat, 8));
     ([rE; rA; rB; rC; rD], (11%nat, 15), (8%nat, 11));
     ([rD; rE; rA; rB; rC], (12%nat, 6), (1%nat, 14));
     ([rC; rD; rE; rA; rB], (13%nat, 7), (10%nat, 14));
     ([rB; rC; rD; rE; rA], (14%nat, 9), (3%nat, 12));
     ([rA; rB; rC; rD; rE], (15%nat, 8), (12%nat, 6))].
Definition p2_lines2 : list (list nat * (nat * Z) * (nat * Z)) :=
    [([rE; rA; rB; rC; rD], (7%nat, 7), (6%nat, 9));
     ([rD; rE; rA; rB; rC], (4%nat, 6), (11%nat, 13));
     ([rC; rD; rE; rA; rB], (13%nat, 8), (3%nat, 15));
     ([rB; rC; rD; rE; rA], (1%nat, 13), (7%nat, 7));
     ([rA; rB; rC; rD; rE], (10%nat, 11), (0%nat, 12));
     ([rE; rA; rB; rC; rD], (6%nat, 9), (13%nat, 8));
     ([rD; rE; rA; rB; rC], (15%nat, 7), (5%nat, 9));
     ([rC; rD; rE; rA; rB], (3%nat, 15), (10%nat, 11));
     ([rB; rC; rD; rE; rA], (12%nat, 7), (14%nat, 7));
     ([rA; rB; rC; rD; rE], (0%nat, 12), (15%nat, 7));
     ([rE; rA; rB; rC; rD], (9%nat, 15), (8%nat, 12));
     ([rD; rE; rA; rB; rC], (5%nat, 9), (12%nat, 7));
     ([rC; rD; rE; rA; rB], (2%nat, 11), (4%nat, 6));
     ([rB; rC; rD; rE; rA], (14%nat, 7), (9%nat, 15));
     ([rA; rB; rC; rD; rE], (11%nat, 13), (1%nat, 13));
     ([rE; rA; rB; rC; rD], (8%nat, 12), (2%nat, 11))].
Definition p2_lines3 : list (list nat * (nat * Z) * (nat * Z)) :=
    [([rD; rE; rA; rB; rC], (3%nat, 11), (15%nat, 9));
     ([rC; rD; rE; rA; rB], (10%nat, 13), (5%nat, 7));
     ([rB; rC; rD; rE; rA], (14%nat, 6), (1%nat, 15));
     ([rA; rB; rC; rD; rE], (4%nat, 7), (3%nat, 11));
     ([rE; rA; rB; rC; rD], (9%nat, 14), (7%nat, 8));
     ([rD; rE; rA; rB; rC], (15%nat, 9), (14%nat, 6));
     ([rC; rD; rE; rA; rB], (8%nat, 13), (6%nat, 6));
     ([rB; rC; rD; rE; rA], (1%nat, 15), (9%nat, 14));
     ([rA; rB; rC; rD; rE], (2%nat, 14), (11%nat, 12));
     ([rE; rA; rB; rC; rD], (7%nat, 8), (8%nat, 13));
     ([rD; rE; rA; rB; rC], (0%nat, 13), (12%nat, 5));
     ([rC; rD; rE; rA; rB], (6%nat, 6), (2%nat, 14));
     ([rB; rC; rD; rE; rA], (13%nat, 5), (10%nat, 13));
     ([rA; rB; rC; rD; rE], (11%nat, 12), (0%nat, 13));
     ([rE; rA; rB; rC; rD], (5%nat, 7), (4%nat, 7));
     ([rD; rE; rA; rB; rC], (12%nat, 5), (13%nat, 5))].
Definition p2_lines4 : list (list nat * (nat * Z) * (nat * Z)) :=
    [([rC; rD; rE; rA; rB], (1%nat, 11), (8%nat, 15));
     ([rB; rC; rD; rE; rA], (9%nat, 12), (6%nat, 5));
     ([rA; rB; rC; rD; rE], (11%nat, 14), (4%nat, 8));
     ([rE; rA; rB; rC; rD], (10%nat, 15), (1%nat, 11));
     ([rD; rE; rA; rB; rC], (0%nat, 14), (3%nat, 14));
     ([rC; rD; rE; rA; rB], (8%nat, 15), (11%nat, 14));
     ([rB; rC; rD; rE; rA], (12%nat, 9), (15%nat, 6));
     ([rA; rB; rC; rD; rE], (4%nat, 8), (0%nat, 14));
     ([rE; rA; rB; rC; rD], (13%nat, 9), (5%nat, 6));
     ([rD; rE; rA; rB; rC], (3%nat, 14), (12%nat, 9));
     ([rC; rD; rE; rA; rB], (7%nat, 5), (2%nat, 12));
     ([rB; rC; rD; rE; rA], (15%nat, 6), (13%nat, 9));
     ([rA; rB; rC; rD; rE], (14%nat, 8), (9%nat, 12));
     ([rE; rA; rB; rC; rD], (5%nat, 6), (7%nat, 5));
     ([rD; rE; rA; rB; rC], (6%nat, 5), (10%nat, 15));
     ([rC; rD; rE; rA; rB], (2%nat, 12), (14%nat, 8))].
Definition p2_lines5 : list (list nat * (nat * Z) * (nat * Z)) :=
    [([rB; rC; rD; rE; rA], (4%nat, 9), (12%nat, 8));
     ([rA; rB; rC; rD; rE], (0%nat, 15), (15%nat, 5));
     ([rE; rA; rB; rC; rD], (5%nat, 5), (10%nat, 12));
     ([rD; rE; rA; rB; rC], (9%nat, 11), (4%nat, 9));
     ([rC; rD; rE; rA; rB], (7%nat, 6), (1%nat, 12));
     ([rB; rC; rD; rE; rA], (12%nat, 8), (5%nat, 5));
     ([rA; rB; rC; rD; rE], (2%nat, 13), (8%nat, 14));
     ([rE; rA; rB; rC; rD], (10%nat, 12), (7%nat, 6));
     ([rD; rE; rA; rB; rC], (14%nat, 5), (6%nat, 8));
     ([rC; rD; rE; rA; rB], (1%nat, 12), (2%nat, 13));
     ([rB; rC; rD; rE; rA], (3%nat, 13), (13%nat, 6));
     ([rA; rB; rC; rD; rE], (8%nat, 14), (14%nat, 5));
     ([rE; rA; rB; rC; rD], (11%nat, 11), (0%nat, 15));
     ([rD; rE; rA; rB; rC], (6%nat, 8), (3%nat, 13));
     ([rC; rD; rE; rA; rB], (15%nat, 5), (9%nat, 11));
     ([rB; rC; rD; rE; rA], (13%nat, 6), (11%nat, 11))].

(** ripemd160.c:119-122, 144-147, 169-172, 194-197, 219-222: F, K, Fp, Kp of the five groups. *)
Definition rmd_groups :=
  [(p2_lines1, F1, 0x00000000, F5, 0x50A28BE6);
   (p2_lines2, F2, 0x5A827999, F4, 0x5C4DD124);
   (p2_lines3, F3, 0x6ED9EBA1, F3, 0x6D703EF3);
   (p2_lines4, F4, 0x8F1BBCDC, F2, 0x7A6D76E9);
   (p2_lines5, F5, 0xA953FD4E, F1, 0x00000000)].
(** ripemd160.c:115-117: P on A..E and on Ap..Ep. *)
Definition rmd_group (X : list Z) (RR : list Z * list Z)
    (g : list (list nat * (nat * Z) * (nat * Z)) * (Z -> Z -> Z -> Z) * Z * (Z -> Z -> Z -> Z) * Z)
    : list Z * list Z :=
  let '(lines, F, K, Fp, Kp) := g in
  fold_left (fun RR (l : list nat * (nat * Z) * (nat * Z)) =>
               let '(roles, rs, rsp) := l in
               (rmd_P X F K roles rs (fst RR), rmd_P X Fp Kp roles rsp (snd RR)))
            lines RR.
(** ripemd160.c:36-43. *)
Definition GET_UINT32_LE (b : list Z) : Z :=
  Z.lor (Z.lor (Z.lor (nth 0 b 0) (u32 (Z.shiftl (nth 1 b 0) 8)))
               (u32 (Z.shiftl (nth 2 b 0) 16))) (u32 (Z.shiftl (nth 3 b 0) 24)).
(** ripemd160.c:46-53. *)
Definition PUT_UINT32_LE (n : Z) : list Z :=
  [Z.land n 0xFF; Z.land (Z.shiftr n 8) 0xFF; Z.land (Z.shiftr n 16) 0xFF;
   Z.land (Z.shiftr n 24) 0xFF].
(** ripemd160.c:75-250. *)
Definition rmd_process (st data : list Z) : list Z :=
  let X := map GET_UINT32_LE (groups 4 data) in
  let '(R, Rp) := fold_left (rmd_group X) rmd_groups (st, st) in
  let s i := nth i st 0 in
  let r i := nth i R 0 in
  let q i := nth i Rp 0 in
  [u32 (s 1%nat + r rC + q rD); u32 (s 2%nat + r rD + q rE); u32 (s 3%nat + r rE + q rA);
   u32 (s 4%nat + r rA + q rB); u32 (s 0%nat + r rB + q rC)].

(** ripemd160.c:59-70; [h_count] is (total[0], total[1]). *)
Definition rmd_Init : hctx :=
  mkHctx [0x67452301; 0xEFCDAB89; 0x98BADCFE; 0x10325476; 0xC3D2E1F0] (0, 0) (zeros 64).

(** ripemd160.c:282-292: whole blocks, then the rest at [left]. *)
Fixpoint rmd_blocks (fuel : nat) (c : hctx) (left : nat) (data : list Z) : hctx :=
  match fuel with
  | O => c
  | S fuel' =>
      if 64 <=? len data then
        rmd_blocks fuel' (mkHctx (rmd_process (h_state c) (firstn 64 data)) (h_count c) (h_buf c))
                   left (skipn 64 data)
      else if 0 <? len data then mkHctx (h_state c) (h_count c) (blit (h_buf c) left data)
      else c
  end.
(** ripemd160.c:256-293. ilen is a uint32_t: the length wraps and only that many bytes are read. *)
Definition rmd_Update (c : hctx) (input : list Z) : hctx :=
  let ilen := u32 (len input) in
  let input := firstn (Z.to_nat ilen) input in
  if ilen =? 0 then c
  else
    let left := Z.land (fst (h_count c)) 0x3F in
    let fill := 64 - left in
    let t0 := Z.land (u32 (fst (h_count c) + ilen)) 0xFFFFFFFF in
    let t1 := if t0 <? ilen then u32 (snd (h_count c) + 1) else snd (h_count c) in
    let c := mkHctx (h_state c) (t0, t1) (h_buf c) in
    if negb (left =? 0) && (fill <=? ilen) then
      let buf := blit (h_buf c) (Z.to_nat left) (firstn (Z.to_nat fill) input) in
      rmd_blocks (S (length input)) (mkHctx (rmd_process (h_state c) buf) (h_count c) buf) 0
                 (skipn (Z.to_nat fill) input)
    else rmd_blocks (S (length input)) c (Z.to_nat left) input.
(** ripemd160.c:306-332, padding table 295-301. *)
Definition rmd_Final (c : hctx) : list Z * hctx :=
  let '(t0, t1) := h_count c in
  let high := Z.lor (Z.shiftr t0 29) (u32 (Z.shiftl t1 3)) in
  let low := u32 (Z.shiftl t0 3) in
  let msglen := PUT_UINT32_LE low ++ PUT_UINT32_LE high in
  let last := Z.land t0 0x3F in
  let padn := if last <? 56 then 56 - last else 120 - last in
  let c := rmd_Update (rmd_Update c (firstn (Z.to_nat padn) (0x80 :: zeros 63))) msglen in
  (flat_map PUT_UINT32_LE (h_state c), mkHctx (zeros 5) (0, 0) (zeros 64)).

(** * Hash.cpp *)

(** Hash.cpp:58-61 (sha256), 173-176 (sha512), 25-28 (rmd160). *)
Definition sha256 : list Z -> list Z := sha2_hash SHA_256.
Definition sha512 : list Z -> list Z := sha2_hash SHA_512.
Definition rmd160 (data : list Z) : list Z := fst (rmd_Final (rmd_Update rmd_Init data)).

(** The hashing objects as their users see them: the context a constructor leaves, the context
    begin() leaves, write, and end with the digest and the context it leaves. *)
Record hash_obj := mkHashObj {
  o_new : hctx; o_begin : hctx; o_write : hctx -> list Z -> hctx; o_end : hctx -> list Z * hctx }.
(** Hash.cpp:39-54, Hash.h:39; Hash.cpp:99-117, Hash.h:64; Hash.cpp:187-205, Hash.h:146. *)
Definition RMD160_obj : hash_obj := mkHashObj rmd_Init rmd_Init rmd_Update rmd_Final.
Definition SHA256_obj : hash_obj :=
  mkHashObj (sha2_Init SHA_256) (sha2_Init SHA_256) (sha2_Update SHA_256) (sha2_Final SHA_256).
Definition SHA512_obj : hash_obj :=
  mkHashObj (sha2_Init SHA_512) (sha2_Init SHA_512) (sha2_Update SHA_512) (sha2_Final SHA_512).
(** Hash.cpp:140-145; 164-169. *)
Definition Hash160_obj : hash_obj :=
  mkHashObj (sha2_Init SHA_256) (sha2_Init SHA_256) (sha2_Update SHA_256)
            (fun c => let '(h, c) := sha2_Final SHA_256 c in (rmd160 h, c)).
Definition DoubleSha_obj : hash_obj :=
  mkHashObj (sha2_Init SHA_256) (sha2_Init SHA_256) (sha2_Update SHA_256)
            (fun c => let '(h, c) := sha2_Final SHA_256 c in (sha256 h, c)).
(** Hash.cpp:72-78. begin() is inherited from SHA256. *)
Definition TaggedHash_obj (tag : list Z) : hash_obj :=
  let th := sha256 tag in
  mkHashObj (sha2_Update SHA_256 (sha2_Update SHA_256 (sha2_Init SHA_256) th) th)
            (sha2_Init SHA_256) (sha2_Update SHA_256) (sha2_Final SHA_256).
(** Hash.cpp:11-15: write everything at once, then end. HashAlgorithm::begin (Hash.h:19) is
    empty and not virtual, so algo->begin() does nothing. *)
Definition hashData (o : hash_obj) (data : list Z) : list Z :=
  fst (o_end o (o_write o (o_new o) data)).
(** Hash.cpp:126-129, 150-153, 80-83. *)
Definition hash160 : list Z -> list Z := hashData Hash160_obj.
Definition doubleSha : list Z -> list Z := hashData DoubleSha_obj.
Definition tagged_hash (tag : list Z) : list Z -> list Z := hashData (TaggedHash_obj tag).
(** Hash.cpp:94-97, 211-214. *)
Definition sha256Hmac : list Z -> list Z -> list Z := hmac_once SHA_256.
Definition sha512Hmac : list Z -> list Z -> list Z := hmac_once SHA_512.

(** * Seed from mnemonic *)

(** Bitcoin.h:36, bip39.h:29. *)
Definition PBKDF2_ROUNDS : Z := 2048.
(** HDWallet.cpp:277-287: [n] further rounds on (seed, u). *)
Fixpoint seed_rounds (n : nat) (mnemonic seed u : list Z) : list Z :=
  match n with
  | O => seed
  | S n' =>
      let u := hmac_Final SHA_512 (hmac_write SHA_512 (hmac_Init SHA_512 mnemonic) u) in
      seed_rounds n' mnemonic (map (fun ab => Z.lxor (fst ab) (snd ab)) (combine seed u)) u
  end.
(** HDWallet.cpp:261-288: the seed handed to fromSeed (the progress callback is not modelled). *)
Definition mnemonic_seed (mnemonic password : list Z) : list Z :=
  let m := hmac_Init SHA_512 mnemonic in
  let m := hmac_write SHA_512 m (chars "mnemonic") in
  let m := hmac_write SHA_512 m password in
  let m := hmac_write SHA_512 m [0; 0; 0; 1] in
  let u := hmac_Final SHA_512 m in
  seed_rounds (Z.to_nat (PBKDF2_ROUNDS - 1)) mnemonic u u.
(** bip39.c:188-231 without the cache: salt is a 264-byte array, so a longer password overruns
    it (UB). *)
Definition mnemonic_to_seed (junk mnemonic passphrase : list Z) : outcome (list Z) :=
  if 256 <? len passphrase then UB
  else
    let c := pbkdf2_Init SHA_512 junk mnemonic (chars "mnemonic" ++ passphrase) 1 in
    Ok (pbkdf2_Final SHA_512
          (Nat.iter 16 (fun c => pbkdf2_Update SHA_512 c (PBKDF2_ROUNDS / 16)) c)).
