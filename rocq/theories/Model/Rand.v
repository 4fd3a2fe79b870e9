(** Random numbers: src/utility/trezor/rand.c. A function that calls [random32] is given the list of what the calls return, and
    leaves the rest; [None] when the calls shown do not end its loop. *)
From Verif Require Import Base.Bytes Model.Bip39.
Open Scope Z_scope.

(** rand.c:139-148 [random_buffer]: the bytes from position [i] on, [n] of them, with the word [r] in use. *)
Fixpoint buffer_loop (n : nat) (i r : Z) (words : list Z) : option (list Z * list Z) :=
  match n with
  | O => Some ([], words)
  | S n' =>
      let next := if i mod 4 =? 0 then match words with [] => None | w :: t => Some (w, t) end else Some (r, words) in
      match next with
      | None => None
      | Some (r', words') =>
          match buffer_loop n' (i + 1) r' words' with
          | None => None
          | Some (l, rest) => Some (Z.land (Z.shiftr r' (i mod 4 * 8)) 0xFF :: l, rest)
          end
      end
  end.
Definition random_buffer (n : nat) (words : list Z) : option (list Z * list Z) := buffer_loop n 0 0 words.

(** rand.c:153 *)
Fixpoint below (max : Z) (words : list Z) : option (Z * list Z) :=
  match words with
  | [] => None
  | x :: t => if max <=? x then below max t else Some (x, t)
  end.
(** rand.c:150-155 [random_uniform]. Division by zero for 0. *)
Definition random_uniform (n : Z) (words : list Z) : outcome (option (Z * list Z)) :=
  if n =? 0 then UB
  else
    let max := 0xFFFFFFFF - 0xFFFFFFFF mod n in
    match below max words with
    | None => Ok None
    | Some (x, t) => if max / n =? 0 then UB else Ok (Some (x / (max / n), t))
    end.

(** rand.c:157-165 [random_permute], from i on; [len] is below 2^31. *)
Fixpoint permute_loop (i : nat) (str : list Z) (words : list Z) : outcome (option (list Z * list Z)) :=
  match i with
  | O => Ok (Some (str, words))
  | S i' =>
      let! r := random_uniform (Z.of_nat i + 1) words in
      match r with
      | None => Ok None
      | Some (j, words') =>
          let! t := aget str j in
          let! x := aget str (Z.of_nat i) in
          let! str := aset str j x in
          let! str := aset str (Z.of_nat i) t in
          permute_loop i' str words'
      end
  end.
Definition random_permute (str : list Z) (words : list Z) : outcome (option (list Z * list Z)) :=
  permute_loop (length str - 1) str words.

(** * Where the words come from *)
(** rand.c:95-97: on a PC, the result of rand(), which is an int from 0 to RAND_MAX. *)
Definition random32_pc (r : Z) : Z := u32 r.
(** rand.c:41-49: on an ESP8266, from four readings of the hardware register. *)
Definition random32_esp8266 (v0 v1 v2 v3 : Z) : Z :=
  fold_left (fun rngint v => Z.lor (u32 (Z.shiftl rngint 8)) v) [v0; v1; v2; v3] 0.
(** rand.c:59-81: on an STM32, what the register holds, if the generator gets ready within 10 ms. *)
Definition random32_stm32 (ready : option Z) : Z := match ready with Some dr => dr | None => 0 end.
(** rand.c:120-131: elsewhere. The static variables pad, n, d, dat. *)
Definition prng_state : Type := (Z * Z * Z * Z)%type.
Definition prng_init : prng_state := (0xeda4baba, 69, 233, 0).
Definition random32_prng (s : prng_state) : Z * prng_state :=
  let '(pad, n, d, dat) := s in
  let pad := u32 (pad + (dat + d * n)) in
  let pad := u32 (u32 (Z.shiftl pad 3) + Z.shiftr pad 29) in
  let n := Z.lor pad 2 in
  let d := Z.lxor d (u32 (u32 (Z.shiftl pad 31) + Z.shiftr pad 1)) in
  let dat := u8 (Z.lxor dat (Z.lxor (Z.lxor (u8 pad) (Z.shiftr d 8)) 1)) in
  (Z.lxor (Z.lxor (Z.lxor pad (u32 (Z.shiftl d 5))) (Z.shiftr pad 18)) (Z.shiftl dat 1), (pad, n, d, dat)).
(** The first [k] words. *)
Fixpoint prng_words (k : nat) (s : prng_state) : list Z :=
  match k with
  | O => []
  | S k' => let '(w, s') := random32_prng s in w :: prng_words k' s'
  end.

(** Bitcoin.cpp:23-29 with bip39.c:49-59: generateMnemonic(numWords), given what random32 returns. *)
Definition generateMnemonic_words (junk numWords : Z) (words : list Z) : option (outcome (option (list Z))) :=
  match random_buffer 32 words with
  | None => None
  | Some (rnd, _) => Some (generateMnemonic_random junk rnd numWords)
  end.
