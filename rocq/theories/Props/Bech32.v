(** C27, C28: segregated witness addresses. *)
From Coq Require Import Lia.
From Verif Require Import Base.Bytes Base.BytesFacts Model.Bech32 Spec.Bech32 Proof.BechSegwit.
Open Scope Z_scope.

(** C27. Encoding writes the BIP 173 address of the witness program, NUL-terminated;
    decoding it, in either case, gives back the version and the program. *)
Theorem C27_round_trip : forall hrp ver prog out,
  hrp_ok hrp -> program_ok ver prog -> len hrp + 8 + (8 * len prog + 4) / 5 < len out ->
  exists text, segwit_text hrp ver prog text /\
    segwit_addr_encode out hrp ver prog = Ok (1, text ++ 0 :: skipn (length text + 1) out) /\
    forall s buf, to_lower s = text -> mixed_case s = false -> len prog <= len buf ->
      segwit_addr_decode buf hrp s = Ok (Some (ver, prog ++ skipn (length prog) buf, len prog)).
Proof. exact segwit_round_trip. Qed.
Print Assumptions C27_round_trip.

(** The decoder accepts these strings and no other. *)
Theorem C27_exact : forall hrp s buf ver w n, 40 <= len buf ->
  (segwit_addr_decode buf hrp s = Ok (Some (ver, w, n)) <->
   exists prog, hrp_ok hrp /\ program_ok ver prog /\ segwit_text hrp ver prog (to_lower s) /\ mixed_case s = false /\
     w = prog ++ skipn (length prog) buf /\ n = len prog).
Proof. exact segwit_exact. Qed.
Print Assumptions C27_exact.

(** A program has one address only. *)
Theorem C27_unique : forall hrp ver prog a b, segwit_text hrp ver prog a -> segwit_text hrp ver prog b -> a = b.
Proof. exact segwit_text_unique. Qed.
Print Assumptions C27_unique.

(** The first test vector of BIP 173, in both cases, and mixed. *)
Definition ex_prog : list Z := [117; 30; 118; 232; 25; 145; 150; 212; 84; 148; 28; 69; 209; 179; 163; 35; 241; 67; 59; 214].
Definition ex_addr : list Z := chars "bc1qw508d6qejxtdg4y5r3zarvary0c5xw7kv8f3t4".
Example C27_ex : hrp_ok (chars "bc") /\ program_ok 0 ex_prog /\
  segwit_addr_encode (zeros 50) (chars "bc") 0 ex_prog = Ok (1, ex_addr ++ 0 :: zeros 7) /\
  segwit_addr_decode (zeros 40) (chars "bc") ex_addr = Ok (Some (0, ex_prog ++ zeros 20, 20)) /\
  segwit_addr_decode (zeros 40) (chars "bc") (chars "BC1QW508D6QEJXTDG4Y5R3ZARVARY0C5XW7KV8F3T4") = Ok (Some (0, ex_prog ++ zeros 20, 20)) /\
  segwit_addr_decode (zeros 40) (chars "bc") (chars "BC1Qw508d6qejxtdg4y5r3zarvary0c5xw7kv8f3t4") = Ok None.
Proof.
  split; [|split; [|split; [|split; [|split]]]]; try (vm_compute; reflexivity).
  - split; [|vm_compute; split; discriminate]. constructor; [|constructor; [|constructor]]; (split; [cbn; lia|reflexivity]).
  - split; [apply bytes_ok_bool; vm_compute; reflexivity|]. split; [lia|]. split; [vm_compute; split; discriminate|]. intros _. left. reflexivity.
Qed.
(** Version 1, forty bytes (BIP 173). *)
Example C27_ex40 :
  segwit_addr_decode (zeros 40) (chars "bc") (chars "bc1pw508d6qejxtdg4y5r3zarvary0c5xw7kw508d6qejxtdg4y5r3zarvary0c5xw7k7grplx")
  = Ok (Some (1, ex_prog ++ ex_prog, 40)).
Proof. vm_compute. reflexivity. Qed.

(** C28. Two addresses of one length and network that differ in one to four characters,
    other than in case, are never both accepted. *)
Theorem C28_detects_four_errors : forall hrp a b buf r,
  40 <= len buf -> len a <= 84 \/ (In 49 b /\ len a <= 90) ->
  segwit_addr_decode buf hrp a = Ok (Some r) ->
  len a = len b -> 1 <= differences (to_lower a) (to_lower b) <= 4 ->
  segwit_addr_decode buf hrp b = Ok None.
Proof. exact segwit_detected. Qed.
Print Assumptions C28_detects_four_errors.

(** Whatever the lengths and buffers, two accepted strings are the same or differ in five places. *)
Theorem C28_distance : forall buf buf' hrp a b r r',
  segwit_addr_decode buf hrp a = Ok (Some r) -> segwit_addr_decode buf' hrp b = Ok (Some r') ->
  len a = len b -> differences (to_lower a) (to_lower b) <= 4 -> to_lower a = to_lower b.
Proof. exact segwit_detects. Qed.
Print Assumptions C28_distance.

Example C28_ex :
  segwit_addr_decode (zeros 40) (chars "bc") ex_addr = Ok (Some (0, ex_prog ++ zeros 20, 20)) /\
  differences (to_lower ex_addr) (to_lower (chars "bc1qw508d6qejxtdg4y5r3zarvqqy0c5xw7kv8f3qq")) = 4 /\
  segwit_addr_decode (zeros 40) (chars "bc") (chars "bc1qw508d6qejxtdg4y5r3zarvqqy0c5xw7kv8f3qq") = Ok None.
Proof. vm_compute. auto. Qed.

(** The same for the plain bech32 decoder and up to 89 characters behind the prefix, whatever the prefix. *)
Theorem C28_bech32 : forall hb db hb' db' pre a b r r', ~ In 49 a -> ~ In 49 b ->
  bech32_decode hb db (pre ++ 49 :: a) = Ok (1, fst (fst r), snd (fst r), snd r) ->
  bech32_decode hb' db' (pre ++ 49 :: b) = Ok (1, fst (fst r'), snd (fst r'), snd r') ->
  len a = len b -> len a <= 89 -> differences (to_lower a) (to_lower b) <= 4 -> to_lower a = to_lower b.
Proof. exact bech32_detects. Qed.
Print Assumptions C28_bech32.
Example C28_bech32_ex : exists r, bech32_decode (zeros 84) (zeros 84)
  (chars "11qqqqqqqqqqqqqqqqqqqqqqqqqqqqqqqqqqqqqqqqqqqqqqqqqqqqqqqqqqqqqqqqqqqqqqqqqqqqqqqqqqc8247j") = Ok r /\ fst (fst (fst r)) = 1 /\ snd r = 82.
Proof. eexists. split; [vm_compute; reflexivity|]. split; reflexivity. Qed.
