(** Specification side of script building: how nodes read a script, and the multisig template. *)
From Verif Require Import Base.Bytes Model.Script.
Open Scope Z_scope.

Inductive item := Push (data : list Z) | Op (code : Z).

(** A script as the script interpreter reads it: codes 1 to 75 push that many bytes,
    76, 77 and 78 (OP_PUSHDATA1, 2, 4) push as many as the next 1, 2 or 4 bytes say
    (little endian); every other byte is an opcode. [None]: a push runs over the end. *)
Definition take_push (n : Z) (t : list Z) : option (list Z * list Z) :=
  if n <=? len t then Some (firstn (Z.to_nat n) t, skipn (Z.to_nat n) t) else None.
Definition take_sized (w : nat) (t : list Z) : option (list Z * list Z) :=
  if Z.of_nat w <=? len t then take_push (le_val 256 (firstn w t)) (skipn w t) else None.
Fixpoint read_items (fuel : nat) (bs : list Z) : option (list item) :=
  match bs with
  | [] => Some []
  | c :: t =>
      match fuel with
      | O => None
      | S k =>
          let next (r : option (list Z * list Z)) :=
            match r with
            | None => None
            | Some (d, rest) => match read_items k rest with None => None | Some l => Some (Push d :: l) end
            end in
          if (1 <=? c) && (c <=? 75) then next (take_push c t)
          else if c =? 76 then next (take_sized 1 t)
          else if c =? 77 then next (take_sized 2 t)
          else if c =? 78 then next (take_sized 4 t)
          else match read_items k t with None => None | Some l => Some (Op c :: l) end
      end
  end.
Definition reads_as (bs : list Z) (items : list item) : Prop := read_items (length bs) bs = Some items.

(** m-of-n: OP_m, the keys as pushes, OP_n, OP_CHECKMULTISIG. *)
Definition multisig_script (m : Z) (keys : list (list Z)) : list Z :=
  (80 + m) :: flat_map (fun k => len k :: k) keys ++ [80 + len keys; 174].

(** The bytes sec() gives: 33 or 65 of them. *)
Definition key_bytes (k : list Z) : Prop := bytes_ok k /\ (length k = 33%nat \/ length k = 65%nat).

(** The push calls of a Script, whose argument objects are given by their bytes. *)
Inductive push_call :=
  | PushByte (code : Z) | PushData (data : list Z) | PushKey (sec : list Z)
  | PushSig (der : list Z) (sigType : Z) | PushScript (s : script).
Definition push_one (s : script) (c : push_call) : outcome script :=
  match c with
  | PushByte code => Ok (script_push_byte s code)
  | PushData data => Ok (script_push s data)
  | PushKey sec => Ok (script_push_pubkey s sec)
  | PushSig der t => Ok (script_push_sig s der t)
  | PushScript r => script_push_script s r
  end.
Fixpoint push_all (s : script) (l : list push_call) : outcome script :=
  match l with
  | [] => Ok s
  | c :: t => let! s' := push_one s c in push_all s' t
  end.
(** The argument is made of bytes; a script argument holds a script. *)
Definition push_ok (c : push_call) : Prop :=
  match c with
  | PushByte _ => True
  | PushData data => bytes_ok data
  | PushKey sec => bytes_ok sec
  | PushSig der _ => bytes_ok der
  | PushScript s => sc_len s = len (sc_arr s) /\ bytes_ok (sc_arr s) /\ sc_len s < 2^31
  end.
