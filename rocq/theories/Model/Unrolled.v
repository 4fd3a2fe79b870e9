(** The SHA-2 transforms compiled with SHA2_UNROLL_TRANSFORM: src/utility/trezor/sha2.c:284-357 and 592-662.
    As in Model/Hash.v both are one definition over [sha2]. *)
From Verif Require Import Base.Bytes Model.Hash.
Open Scope Z_scope.

Section Unrolled.
Variable p : sha2.
(** sha2.c:286-291, 305-308 (593-598, 609-612): what a round macro does to the registers. [R] are the variables a..h,
    [args] says which of them the macro gets for its parameters a..h. The sums wrap. *)
Definition macro (args : list nat) (k x : Z) (R : list Z) : list Z :=
  let v := fun i => nth (nth i args O) R 0 in
  let T1 := word p (v 7%nat + Sigma p (s_S1 p) (v 4%nat) + Ch p (v 4%nat) (v 5%nat) (v 6%nat) + k + x) in
  let R1 := set_nth R (nth 3 args O) (word p (v 3%nat + T1)) in
  let v1 := fun i => nth (nth i args O) R1 0 in
  set_nth R1 (nth 7 args O) (word p (T1 + Sigma p (s_S0 p) (v1 0%nat) + Maj (v1 0%nat) (v1 1%nat) (v1 2%nat))).
(** sha2.c:322-329, 334-341 (628-635, 640-647): the arguments of the eight calls. *)
Definition calls : list (list nat) :=
  [[0; 1; 2; 3; 4; 5; 6; 7]; [7; 0; 1; 2; 3; 4; 5; 6]; [6; 7; 0; 1; 2; 3; 4; 5]; [5; 6; 7; 0; 1; 2; 3; 4];
   [4; 5; 6; 7; 0; 1; 2; 3]; [3; 4; 5; 6; 7; 0; 1; 2]; [2; 3; 4; 5; 6; 7; 0; 1]; [1; 2; 3; 4; 5; 6; 7; 0]]%nat.
(** sha2.c:286-291 (593-598): ROUND256_0_TO_15; the pointer data moves with j. *)
Fixpoint calls_first (l : list (list nat)) (j : nat) (data W R : list Z) : nat * list Z * list Z :=
  match l with
  | [] => (j, W, R)
  | args :: t =>
      let x := nth j data 0 in
      calls_first t (S j) data (set_nth W j x) (macro args (nth j (s_K p) 0) x R)
  end.
(** sha2.c:293-302 (600-609): ROUND256. *)
Fixpoint calls_second (l : list (list nat)) (j : nat) (W R : list Z) : nat * list Z * list Z :=
  match l with
  | [] => (j, W, R)
  | args :: t =>
      let s0 := sigma p (s_s0 p) (nth ((j + 1) mod 16) W 0) in
      let s1 := sigma p (s_s1 p) (nth ((j + 14) mod 16) W 0) in
      let x := word p (nth (j mod 16) W 0 + (s1 + nth ((j + 9) mod 16) W 0 + s0)) in
      calls_second t (S j) (set_nth W (j mod 16) x) (macro args (nth j (s_K p) 0) x R)
  end.
(** sha2.c:319-330 (626-636): do ... while (j < 16). [fuel] bounds the loop. *)
Fixpoint loop_first (fuel j : nat) (data W R : list Z) : nat * list Z * list Z :=
  let '(j', W', R') := calls_first calls j data W R in
  match fuel with
  | O => (j', W', R')
  | S f => if (j' <? 16)%nat then loop_first f j' data W' R' else (j', W', R')
  end.
(** sha2.c:332-342 (638-648): do ... while (j < 64) or 80. *)
Fixpoint loop_second (fuel j : nat) (W R : list Z) : list Z :=
  let '(j', W', R') := calls_second calls j W R in
  match fuel with
  | O => R'
  | S f => if (j' <? s_rounds p)%nat then loop_second f j' W' R' else R'
  end.
(** sha2.c:304-357 (611-662). *)
Definition unrolled_Transform (st data : list Z) : list Z :=
  let '(j, W, R) := loop_first 16 0 data (zeros 16) st in
  add_words p st (loop_second (s_rounds p) j W R).

(** The callers of the transform, as in Model/Hash.v: sha2.c:451-457, 502-509 (756-762, 805-812), *)
Definition u_block (c : hctx) : hctx :=
  let ws := map (s_rev p) (mem_words (s_bytes p) (h_buf c)) in
  mkHctx (unrolled_Transform (h_state c) ws) (h_count c) (flat_map (mem_bytes (s_bytes p)) ws).
(** 467-485 (772-790), *)
Fixpoint u_blocks (fuel : nat) (c : hctx) (data : list Z) : hctx :=
  match fuel with
  | O => c
  | S fuel' =>
      if Z.of_nat (block_len p) <=? len data then
        let c1 := u_block (sha2_copy c 0 (firstn (block_len p) data)) in
        u_blocks fuel' (sha2_count p c1 (Z.of_nat (block_len p) * 8)) (skipn (block_len p) data)
      else if 0 <? len data then
        sha2_count p (sha2_copy c 0 data) (u64 (len data * 8))
      else c
  end.
(** 432-488 (737-793), *)
Definition u_Update (c : hctx) (data : list Z) : hctx :=
  if len data =? 0 then c
  else
    let usedspace := u32 (Z.shiftr (fst (h_count c)) 3 mod Z.of_nat (block_len p)) in
    if 0 <? usedspace then
      let freespace := Z.of_nat (block_len p) - usedspace in
      if freespace <=? len data then
        let fill := firstn (Z.to_nat freespace) data in
        let c1 := sha2_count p (sha2_copy c (Z.to_nat usedspace) fill) (freespace * 8) in
        u_blocks (S (length data)) (u_block c1) (skipn (Z.to_nat freespace) data)
      else sha2_count p (sha2_copy c (Z.to_nat usedspace) data) (u64 (len data * 8))
    else u_blocks (S (length data)) c data.
(** 490-542, 795-851. *)
Definition u_Final (c : hctx) : list Z * hctx :=
  let usedspace := Z.to_nat (Z.shiftr (fst (h_count c)) 3 mod Z.of_nat (block_len p)) in
  let c := sha2_copy c usedspace [0x80] in
  let usedspace := S usedspace in
  let '(c, usedspace) :=
    if Nat.ltb (short_len p) usedspace then
      (u_block (mkHctx (h_state c) (h_count c)
                     (wipe (h_buf c) usedspace (block_len p - usedspace))), O)
    else (c, usedspace) in
  let buf := wipe (h_buf c) usedspace (short_len p - usedspace) in
  let ws := map (s_rev p) (firstn 14 (mem_words (s_bytes p) buf)) ++ s_len p (h_count c) in
  let st := unrolled_Transform (h_state c) ws in
  (flat_map (mem_bytes (s_bytes p)) (map (s_rev p) st),
   mkHctx (zeros 8) (0, 0) (zeros (block_len p))).
(** 564-569, 873-878 with any number of calls of Update. *)
Definition u_hash (chunks : list (list Z)) : list Z := fst (u_Final (fold_left u_Update chunks (sha2_Init p))).
End Unrolled.

(** * Digests as text *)
(** sha2.c:544-562, 853-871: [buf] is the buffer, NULL being None. Gives the buffer, the context and, from the start
    of the buffer, where the pointer that is returned points to. *)
Definition hex_digits : list Z := chars "0123456789abcdef".
Definition sha2_End (p : sha2) (c : hctx) (buf : option (list Z)) : outcome (option (list Z) * hctx * Z) :=
  match buf with
  | None => Ok (None, mkHctx (zeros 8) (0, 0) (zeros (block_len p)), 0)
  | Some b =>
      let '(d, c') := sha2_Final p c in
      let t := flat_map (fun x => [nth (Z.to_nat (Z.shiftr (Z.land x 0xf0) 4)) hex_digits 0; nth (Z.to_nat (Z.land x 0x0f)) hex_digits 0]) d ++ [0] in
      if len b <? len t then UB else Ok (Some (t ++ skipn (length t) b), c', len t - 1)
  end.
(** sha2.c:571-577, 880-886. *)
Definition sha2_Data (p : sha2) (data : list Z) (buf : option (list Z)) : outcome (option (list Z) * hctx * Z) :=
  sha2_End p (sha2_Update p (sha2_Init p) data) buf.
