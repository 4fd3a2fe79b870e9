(** C50, C51, C52: multisig scripts, pushes, and the memory of scripts and witnesses. *)
From Coq Require Import Lia Permutation.
From Verif Require Import Base.Bytes Base.BytesFacts Model.Conversion Model.Stream Model.Script Model.Memory
  Spec.Codecs Spec.Wire Spec.Objects Spec.Ops Spec.Memory Proof.PushFacts Proof.MemFacts Proof.MemWitness.
Open Scope Z_scope.

(** * C50 *)
Theorem C50_multi : forall m keys,
  1 <= m <= len keys -> len keys <= 16 -> Forall key_bytes keys ->
  script_holds (multi m keys) (multisig_script m keys).
Proof. exact multi_template. Qed.
Print Assumptions C50_multi.
Theorem C50_multi_refuses : forall m keys,
  0 <= m -> m = 0 \/ len keys < m \/ 16 < len keys -> multi m keys = script_new.
Proof. exact multi_empty. Qed.
Print Assumptions C50_multi_refuses.
(** sortedmulti() does not sort: it gives no script of another order of the same keys,
    in particular not the one of the sorted keys. *)
Theorem C50_sorted_refuted : forall m keys sorted,
  1 <= m <= len keys -> len keys <= 16 -> Forall key_bytes keys ->
  Permutation keys sorted -> keys <> sorted ->
  sc_arr (sortedmulti m keys) <> multisig_script m sorted.
Proof. exact sorted_differs. Qed.
Print Assumptions C50_sorted_refuted.

Definition ex_key (a b : Z) : list Z := a :: repeat b 32.
Example C50_ex_key : forall a b, byte_ok a -> byte_ok b -> key_bytes (ex_key a b).
Proof.
  intros a b A B. split; [|left; reflexivity]. constructor; [exact A|]. apply Forall_forall. intros x I. apply repeat_spec in I. subst x. exact B.
Qed.
Example C50_ex :
  sc_arr (multi 2 [ex_key 3 7; ex_key 2 9]) = [82; 33] ++ ex_key 3 7 ++ [33] ++ ex_key 2 9 ++ [82; 174] /\
  sc_arr (sortedmulti 2 [ex_key 3 7; ex_key 2 9]) <> sc_arr (multi 2 [ex_key 2 9; ex_key 3 7]) /\
  multi 3 [ex_key 3 7; ex_key 2 9] = script_new.
Proof. split; [|split]; vm_compute; [reflexivity|discriminate|reflexivity]. Qed.

(** * C51 *)
(** A script that reads as [items] reads as one item more after the push. *)
Theorem C51_push_key : forall s bs items sec,
  script_holds s bs -> reads_as bs items -> key_bytes sec -> len bs + 1 + len sec <= 10000 ->
  exists bs', script_holds (script_push_pubkey s sec) bs' /\ reads_as bs' (items ++ [Push sec]).
Proof. exact push_key_reads. Qed.
Print Assumptions C51_push_key.
Theorem C51_push_sig : forall s bs items der t,
  script_holds s bs -> reads_as bs items -> bytes_ok der -> byte_ok t ->
  len der <= 74 -> len bs + 2 + len der <= 10000 ->
  exists bs', script_holds (script_push_sig s der t) bs' /\ reads_as bs' (items ++ [Push (der ++ [t])]).
Proof. exact push_sig_reads. Qed.
Print Assumptions C51_push_sig.
(** Missing for all scripts: see C51_push_script_refuted. *)
Theorem C51_push_script_partial : forall s bs items r code,
  script_holds s bs -> reads_as bs items -> script_holds r code -> 1 <= len code <= 75 ->
  len bs + 1 + len code <= 10000 ->
  exists s' bs', script_push_script s r = Ok s' /\ script_holds s' bs' /\ reads_as bs' (items ++ [Push code]).
Proof. exact push_script_reads. Qed.
Print Assumptions C51_push_script_partial.
(** push(Script) of 76 bytes or more, such as any 2-of-3 multisig, is not a push of that script. *)
Theorem C51_push_script_refuted : forall s bs items r code s',
  script_holds s bs -> reads_as bs items -> script_holds r code -> 76 <= len code ->
  len bs + len (wire_bytes code) <= 10000 -> script_push_script s r = Ok s' ->
  ~ reads_as (sc_arr s') (items ++ [Push code]).
Proof. exact push_script_bad. Qed.
Print Assumptions C51_push_script_refuted.
(** No sequence of pushes takes a script over the limit. *)
Theorem C51_limit : forall calls s bs,
  script_holds s bs -> len bs <= 10000 -> Forall push_ok calls ->
  exists s', push_all s calls = Ok s' /\ sc_len s' = len (sc_arr s') /\ sc_len s' <= 10000.
Proof. exact push_all_limit. Qed.
Print Assumptions C51_limit.
(** But a push that does not fit leaves part of itself: the key without its length,
    or the hash type of the signature alone. *)
Theorem C51_full_key_refuted : forall s bs sec,
  script_holds s bs -> len bs = 10000 -> key_bytes sec -> sc_arr (script_push_pubkey s sec) = sec.
Proof. exact torn_key. Qed.
Print Assumptions C51_full_key_refuted.
Theorem C51_full_sig_refuted : forall s bs der t,
  script_holds s bs -> byte_ok t -> len bs < 10000 < len bs + 1 + len der -> sc_arr (script_push_sig s der t) = [t].
Proof. exact torn_sig. Qed.
Print Assumptions C51_full_sig_refuted.

Example C51_ex :
  let s := script_of [118; 169] in
  reads_as [118; 169] [Op 118; Op 169] /\
  reads_as (sc_arr (script_push_pubkey s (ex_key 2 9))) [Op 118; Op 169; Push (ex_key 2 9)] /\
  reads_as (sc_arr (script_push_sig s (repeat 48 71) 1)) [Op 118; Op 169; Push (repeat 48 71 ++ [1])] /\
  (* 76 bytes: the length byte is OP_PUSHDATA1, the next byte (81) its length *)
  (let! s' := script_push_script s (script_of (repeat 81 76)) in Ok (read_items 200 (sc_arr s'))) = Ok None /\
  (let! s' := push_all script_new [PushKey (ex_key 2 9); PushData (repeat 7 80); PushScript (script_of [81])] in Ok (sc_len s')) = Ok 116.
Proof. cbv zeta. repeat match goal with |- _ /\ _ => split end; vm_compute; reflexivity. Qed.

(** * C52 *)
(** Scripts: no history of calls frees a block twice or uses a freed one. *)
Theorem C52_script : forall calls,
  Forall script_call calls -> srun (heap_empty, []) calls <> UB.
Proof. exact (fun calls F => srun_safe calls (heap_empty, []) sinv_empty F). Qed.
Print Assumptions C52_script.
(** Witnesses: refuted. clear() and then destruction free twice; so does the assignment of
    an empty witness, a push over the limit, and parsing a second, empty witness. *)
Theorem C52_clear_refuted : forall d,
  len d <= 9990 -> wrun (heap_empty, []) [WNew; WPush 0 d; WClear 0; WDestroy 0] = UB.
Proof. exact clear_twice. Qed.
Print Assumptions C52_clear_refuted.
Theorem C52_assign_refuted : forall d,
  len d <= 9990 -> wrun (heap_empty, []) [WNew; WPush 0 d; WNew; WAssign 0 1; WDestroy 0] = UB.
Proof. exact assign_twice. Qed.
Print Assumptions C52_assign_refuted.
Theorem C52_push_refuted : forall d e,
  len d <= 9990 -> 10000 <= len e -> wrun (heap_empty, []) [WNew; WPush 0 d; WPush 0 e; WDestroy 0] = UB.
Proof. exact push_twice. Qed.
Print Assumptions C52_push_refuted.
Theorem C52_reparse_refuted : forall b,
  byte_ok b -> wrun (heap_empty, []) [WNew; WParse 0 [1; 1; b]; WParse 0 [0]; WDestroy 0] = UB.
Proof. exact reparse_twice. Qed.
Print Assumptions C52_reparse_refuted.
(** Eight bytes from the wire are enough: a second element declared 2^31 - 1 bytes long,
    for which the allocation fails. *)
Theorem C52_parse_refuted : forall b,
  byte_ok b -> wrun (heap_empty, []) [WNew; WParse 0 [2; 1; b; 254; 255; 255; 255; 127]; WDestroy 0] = UB.
Proof. exact parse_twice. Qed.
Print Assumptions C52_parse_refuted.
(** What holds for witnesses. Missing: the histories in which a witness with elements
    becomes empty, or a parse fails. *)
Theorem C52_witness_partial : forall calls,
  Forall witness_call calls -> always_intact (heap_empty, []) calls -> wrun (heap_empty, []) calls <> UB.
Proof. exact (fun calls F K => wrun_safe calls (heap_empty, []) winv_empty F K). Qed.
Print Assumptions C52_witness_partial.

(** A history of each kind that meets the hypotheses and reaches its end. *)
Definition live_after {A} (r : outcome (option (heap * list (option A)))) : option (list nat) :=
  match r with Ok (Some (h, _)) => Some (h_live h) | _ => None end.
Example C52_ex_script :
  live_after (srun (heap_empty, []) [SNew [81; 82]; SCopy 0; SAssign 1 0; SPush 1 [1; 2]; SPushScript 0 1; SParse 1 [2; 7]; SParse 1 [8];
     SClear 0; SPush 0 [9]; SDestroy 0; SDestroy 1]) = Some [5%nat]. (* tmp of push(Script) is lost *)
Proof. vm_compute. reflexivity. Qed.
Definition ex_history : list wop :=
  [WNew; WPush 0 [1; 2]; WPush 0 [3]; WCopy 0; WNew; WAssign 2 1; WParse 1 [2; 1; 7; 2]; WParse 1 [8; 9]; WRead 1;
   WDestroy 0; WDestroy 1; WDestroy 2].
Example C52_ex_witness : always_intact (heap_empty, []) ex_history /\ live_after (wrun (heap_empty, []) ex_history) = Some [].
Proof.
  split; [|vm_compute; reflexivity].
  unfold ex_history. repeat
    (cbn [always_intact]; match goal with
     | |- True => exact I
     | |- match ?x with _ => _ end => let y := eval vm_compute in x in change x with y; cbv iota; split
     end); unfold intact; cbn [snd];
    intros i m m'; unfold obj; do 4 (try destruct i as [|i]); cbn [nth]; intros E1 E2; try discriminate E1; try discriminate E2;
    inversion E1; inversion E2; subst; split; vm_compute; intros Q; first [reflexivity|discriminate Q].
Qed.
