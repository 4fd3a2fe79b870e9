(** The blocks owned by Script and Witness objects: which are allocated, who points
    to them, and when they are freed. Contents are those of Model/Script.v.
    Allocations of script-sized blocks are taken to succeed, except those whose size comes
    from parsed bytes ([alloc_ok], Model/Stream.v). A block is never reused: a freed one stays dead.
    UB here means: freeing a block that is not allocated, or reading or writing through
    a pointer that is NULL or dead. Blocks that are lost (leaks) are allowed. *)
From Verif Require Import Base.Bytes Model.Conversion Model.Stream Model.Script.
Open Scope Z_scope.

Record heap := mkHeap { h_next : nat; h_live : list nat }.
Definition heap_empty : heap := mkHeap 0 [].
Definition is_live (h : heap) (p : nat) : bool := existsb (Nat.eqb p) (h_live h).
(** malloc, calloc *)
Definition halloc (h : heap) : heap * option nat := (mkHeap (S (h_next h)) (h_next h :: h_live h), Some (h_next h)).
(** free; free(NULL) does nothing. *)
Definition hfree (h : heap) (p : option nat) : outcome heap :=
  match p with
  | None => Ok h
  | Some q => if is_live h q then Ok (mkHeap (h_next h) (filter (fun x => negb (Nat.eqb q x)) (h_live h))) else UB
  end.
(** Access through a pointer. *)
Definition huse (h : heap) (p : option nat) : outcome unit :=
  match p with
  | None => UB
  | Some q => if is_live h q then Ok tt else UB
  end.
(** realloc that succeeds: the old block is dead. *)
Definition hrealloc (h : heap) (p : option nat) : outcome (heap * option nat) :=
  let! h' := hfree h p in Ok (halloc h').

(** ** Script *)

(** A Script object: scriptArray as a pointer, and the rest. *)
Record mscript := mkMs { ms_ptr : option nat; ms_val : script }.
Definition ms_len (m : mscript) : Z := sc_len (ms_val m).

(** Script.cpp:256-263. *)
Definition ms_clear (h : heap) (m : mscript) : outcome (heap * mscript) :=
  match ms_ptr m with
  | Some _ =>
      if 0 <? ms_len m
      then let! h' := hfree h (ms_ptr m) in Ok (h', mkMs None (script_clear (ms_val m)))
      else Ok (h, m)
  | None => Ok (h, m)
  end.
(** Script.cpp:420-454: both pushes of bytes. *)
Definition ms_push (h : heap) (m : mscript) (data : list Z) : outcome (heap * mscript) :=
  if ms_len m + len data >? MAX_SCRIPT_SIZE then ms_clear h m
  else
    let! hp := (if ms_len m =? 0 then Ok (halloc h) else hrealloc h (ms_ptr m)) in
    let '(h', p) := hp in
    let! _ := huse h' p in
    Ok (h', mkMs p (script_push (ms_val m) data)).
(** Script.cpp:495-503. *)
Definition ms_copy (h : heap) (src : mscript) : outcome (heap * mscript) :=
  if 0 <? ms_len src then
    let! _ := huse h (ms_ptr src) in
    let '(h', p) := halloc h in
    Ok (h', mkMs p (script_copy (ms_val src)))
  else Ok (h, mkMs None (script_copy (ms_val src))).
(** Script.cpp:484-494, for another object. *)
Definition ms_assign (h : heap) (dst src : mscript) : outcome (heap * mscript) :=
  let! r := ms_clear h dst in
  let '(h1, d) := r in
  if 0 <? ms_len src then
    let! _ := huse h1 (ms_ptr src) in
    let '(h2, p) := halloc h1 in
    Ok (h2, mkMs p (script_assign (ms_val dst) (ms_val src)))
  else Ok (h1, mkMs (ms_ptr d) (script_assign (ms_val dst) (ms_val src))).
(** Bitcoin.h:503. *)
Definition ms_destroy (h : heap) (m : mscript) : outcome heap := hfree h (ms_ptr m).
(** Script.cpp:470-478: the argument is a copy, destroyed afterwards; tmp is never freed.
    [bytes] is what the copy serializes to. *)
Definition ms_push_script_val (src : mscript) : outcome (list Z) :=
  let c := script_copy (ms_val src) in
  let! v := serialize (script_to_stream c) (Z.to_nat (script_length c)) 0 in Ok (snd v).
Definition ms_push_script (h : heap) (m src : mscript) (bytes : list Z) : outcome (heap * mscript) :=
  let! r := ms_copy h src in
  let '(h1, c) := r in
  let '(h2, _) := halloc h1 in
  let! _ := (if 0 <? ms_len c then huse h2 (ms_ptr c) else Ok tt) in
  let! r3 := ms_push h2 m bytes in
  let '(h3, m') := r3 in
  let! h4 := ms_destroy h3 c in
  Ok (h4, m').
(** Script.cpp:127-255: the other constructors: an empty script, or one new block. *)
Definition ms_make (h : heap) (data : option (list Z)) : heap * mscript :=
  match data with
  | None => (h, mkMs None script_new)
  | Some bs => let '(h', p) := halloc h in (h', mkMs p (mkScript bs (len bs) 0 DONE 0))
  end.
(** Script.cpp:316-331. *)
Definition ms_read (h : heap) (m : mscript) : outcome unit :=
  if 0 <? ms_len m then huse h (ms_ptr m) else Ok tt.

(** Script.cpp:274-299: lenLen and scriptLen when the length has been read as far as
    the bytes go, the position and whether it is complete. *)
Definition script_header (s : script) (st : list Z) : outcome (Z * Z * Z) :=
  let '(len1, lenLen1, pos1, st1) :=
    match st with
    | b :: t =>
        if sc_parsed s =? 0 then
          if b <? 253 then (b, 1, 1, t) else (0, varint_len b, 1, t)
        else (sc_len s, sc_lenLen s, sc_parsed s, st)
    | [] => (sc_len s, sc_lenLen s, sc_parsed s, st)
    end in
  let! r := read_loop_o lenLen1 pos1 script_len_step len1 st1 in
  let '(len2, pos2, _) := r in
  Ok (len2, lenLen1, pos2).
(** Script.cpp:264-315: [Ok None] when the parser itself is undefined for another reason. *)
Definition ms_parse (h : heap) (m : mscript) (st : list Z) : outcome (option (heap * mscript)) :=
  match sc_status (ms_val m) with
  | FAILED => Ok (Some (h, m))
  | status =>
      let! r := (match status with DONE => ms_clear h m | _ => Ok (h, m) end) in
      let '(h0, m0) := r in
      let s0 := match status with
                | DONE => script_clear (mkScript (sc_arr (ms_val m)) (sc_len (ms_val m)) (sc_lenLen (ms_val m)) DONE 0)
                | _ => ms_val m end in
      let '(h1, p1) :=
        match st with
        | b :: _ => if (sc_parsed s0 =? 0) && ((253 <=? b) || (0 <? b)) then halloc h0 else (h0, ms_ptr m0)
        | [] => (h0, ms_ptr m0)
        end in
      match script_header s0 st, script_parse (ms_val m) st with
      | Ok (len2, lenLen, pos2), Ok (s', _, _) =>
          let! r2 :=
            (if (pos2 =? lenLen) && (0 <? len2) then
               let! h2 := hfree h1 p1 in
               if alloc_ok len2 then Ok (halloc h2) else Ok (h2, None)
             else Ok (h1, p1)) in
          let '(h2, p2) := r2 in
          let! _ := (if pos2 <? sc_parsed s' then huse h2 p2 else Ok tt) in
          Ok (Some (h2, mkMs p2 s'))
      | _, _ => Ok None
      end
  end.

(** ** Witness *)

Record mwitness := mkMw { mw_ptr : option nat; mw_val : witness }.
Definition mw_len (m : mwitness) : Z := wi_len (mw_val m).

(** Script.cpp:507-513: the pointer is kept. *)
Definition mw_clear (h : heap) (m : mwitness) : outcome (heap * mwitness) :=
  if 0 <? mw_len m
  then let! h' := hfree h (mw_ptr m) in Ok (h', mkMw (mw_ptr m) (witness_clear (mw_val m)))
  else Ok (h, mkMw (mw_ptr m) (witness_clear (mw_val m))).
(** Script.cpp:651-669. *)
Definition mw_push (h : heap) (m : mwitness) (data : list Z) : outcome (heap * mwitness) :=
  let! v := witness_push (mw_val m) data in
  if mw_len m + len data + lenVarInt (len data) >? MAX_SCRIPT_SIZE then mw_clear h m
  else
    let! hp := (if mw_len m =? 0 then Ok (halloc h) else hrealloc h (mw_ptr m)) in
    let '(h', p) := hp in
    let! _ := huse h' p in
    Ok (h', mkMw p v).
(** Script.cpp:694-703. *)
Definition mw_copy (h : heap) (src : mwitness) : outcome (heap * mwitness) :=
  if 0 <? mw_len src then
    let! _ := huse h (mw_ptr src) in
    let '(h', p) := halloc h in
    Ok (h', mkMw p (witness_copy (mw_val src)))
  else Ok (h, mkMw None (witness_copy (mw_val src))).
(** Script.cpp:704-715, for another object. *)
Definition mw_assign (h : heap) (dst src : mwitness) : outcome (heap * mwitness) :=
  let! r := mw_clear h dst in
  let '(h1, d) := r in
  if 0 <? mw_len src then
    let! _ := huse h1 (mw_ptr src) in
    let '(h2, p) := halloc h1 in
    Ok (h2, mkMw p (witness_assign (mw_val dst) (mw_val src)))
  else Ok (h1, mkMw (mw_ptr d) (witness_assign (mw_val dst) (mw_val src))).
(** Bitcoin.h:572. *)
Definition mw_destroy (h : heap) (m : mwitness) : outcome heap := hfree h (mw_ptr m).
(** Script.cpp:632-647. *)
Definition mw_read (h : heap) (m : mwitness) : outcome unit :=
  if 0 <? mw_len m then huse h (mw_ptr m) else Ok tt.

(** Script.cpp:574-597: the size the array must grow to, if the length of an element was
    completed and is in order. *)
Definition element_need (w : witness) (st : list Z) : outcome (option Z) :=
  let '(elen1, curLen1, epos1, st1) :=
    match st with
    | b :: t =>
        if wi_eparsed w =? 0 then
          if b <? 253 then (b, 1, 1, t) else (0, varint_len b, 1, t)
        else (wi_elen w, wi_curLen w, wi_eparsed w, st)
    | [] => (wi_elen w, wi_curLen w, wi_eparsed w, st)
    end in
  let! r := read_loop_o curLen1 epos1 script_len_step elen1 st1 in
  let '(elen2, epos2, _) := r in
  if (lenVarInt elen2 =? curLen1) && (epos2 =? curLen1) && (0 <? epos2 - wi_eparsed w)
  then Ok (Some (wi_len w + elen2 + lenVarInt elen2)) else Ok None.
(** Script.cpp:597-614. A realloc that fails is followed by free, and the pointer is kept. *)
Definition mw_element (h : heap) (p : option nat) (w : witness) (st : list Z) : outcome (heap * option nat) :=
  let! g := element_need w st in
  match g with
  | None => Ok (h, p)
  | Some need =>
      if wi_len w =? 0 then
        if alloc_ok need then Ok (halloc h) else Ok (h, None)
      else if alloc_ok need then hrealloc h p
           else let! h' := hfree h p in Ok (h', p)
  end.
(** Script.cpp:570-624. The bytes of an element are written through the pointer. *)
Fixpoint mw_elements (fuel : nat) (h : heap) (p : option nat) (w : witness) (pos : Z) (st : list Z) : outcome (heap * option nat) :=
  match st with
  | [] => Ok (h, p)
  | _ :: _ =>
      if wi_cur w <? wi_num w then
        match fuel with
        | O => Ok (h, p)
        | S k =>
            match witness_element w pos st with
            | UB => Ok (h, p)
            | Ok (w1, pos1, st1, stop) =>
                let! r := mw_element h p w st in
                let '(h1, p1) := r in
                let! _ := (if 0 <? wi_len w1 then huse h1 p1 else Ok tt) in
                if stop then Ok (h1, p1) else mw_elements k h1 p1 w1 pos1 st1
            end
        end
      else Ok (h, p)
  end.
(** Script.cpp:535-631. *)
Definition mw_parse (h : heap) (m : mwitness) (st : list Z) : outcome (option (heap * mwitness)) :=
  match wi_status (mw_val m), witness_parse (mw_val m) st with
  | _, UB => Ok None
  | FAILED, _ => Ok (Some (h, m))
  | status, Ok (w', _, _) =>
      let! r := (match status with DONE => mw_clear h m | _ => Ok (h, m) end) in
      let '(h0, m0) := r in
      let w0 := match status with
                | DONE => witness_clear (mkWitness (wi_arr (mw_val m)) (wi_len (mw_val m)) (wi_num (mw_val m)) 0 0 0 0 0 DONE 0)
                | _ => mw_val m end in
      let '(num, lenLen, pos1, st1, failed) :=
        match st with
        | b :: t => if wi_parsed w0 =? 0 then (b, 1, 1, t, negb (b <? 253))
                    else (wi_num w0, wi_lenLen w0, wi_parsed w0, st, false)
        | [] => (wi_num w0, wi_lenLen w0, wi_parsed w0, st, false)
        end in
      if failed || ((pos1 =? lenLen) && negb (lenVarInt num =? lenLen)) then Ok (Some (h0, mkMw (mw_ptr m0) w'))
      else
        let w1 := mkWitness (wi_arr w0) (wi_len w0) num (wi_cur w0) (wi_elen w0) (wi_eparsed w0)
                    (wi_curLen w0) lenLen INCOMPLETE (wi_parsed w0) in
        let! r2 := mw_elements (S (length st1)) h0 (mw_ptr m0) w1 pos1 st1 in
        let '(h2, p2) := r2 in
        Ok (Some (h2, mkMw p2 w'))
  end.

(** ** Programs: sequences of calls on a growing list of objects *)

(** The objects made so far; [None] once destroyed. *)
Definition obj {A} (l : list (option A)) (i : nat) : option A := nth i l None.
Fixpoint put {A} (l : list (option A)) (i : nat) (x : option A) : list (option A) :=
  match l, i with
  | [], _ => []
  | _ :: t, O => x :: t
  | y :: t, S k => y :: put t k x
  end.

(** Calls on Script objects (Bitcoin.h:486-548). A call on an object that does not exist does nothing. *)
Inductive sop :=
  | SNew (data : list Z)              (* Script(buffer, len) *)
  | SMake (data : option (list Z))    (* Script(), Script(address), standard scripts *)
  | SCopy (i : nat)                   (* Script(const Script&) *)
  | SAssign (i j : nat)               (* operator= *)
  | SPush (i : nat) (data : list Z)   (* push(uint8_t), push(data, len) *)
  | SPushScript (i j : nat)           (* push(Script) *)
  | SClear (i : nat)                  (* clear() *)
  | SParse (i : nat) (bytes : list Z) (* from_stream *)
  | SRead (i : nat)                   (* to_stream, address(), comparison *)
  | SDestroy (i : nat).               (* ~Script() *)

Definition sstate := (heap * list (option mscript))%type.
(** One call. UB: a memory error. [None]: the parser was undefined for another reason. *)
Definition sstep (st : sstate) (o : sop) : outcome (option sstate) :=
  let '(h, l) := st in
  let with1 i (k : mscript -> outcome (option sstate)) := match obj l i with Some m => k m | None => Ok (Some st) end in
  let store i (r : outcome (heap * mscript)) := let! x := r in Ok (Some (fst x, put l i (Some (snd x)))) in
  match o with
  | SNew data =>
      let! x := ms_push h (mkMs None script_new) data in Ok (Some (fst x, l ++ [Some (snd x)]))
  | SMake data => let x := ms_make h data in Ok (Some (fst x, l ++ [Some (snd x)]))
  | SCopy i => with1 i (fun m => let! x := ms_copy h m in Ok (Some (fst x, l ++ [Some (snd x)])))
  | SAssign i j => with1 i (fun d => with1 j (fun s => if Nat.eqb i j then Ok (Some st) else store i (ms_assign h d s)))
  | SPush i data => with1 i (fun m => store i (ms_push h m data))
  | SPushScript i j => with1 i (fun m => with1 j (fun s =>
      match ms_push_script_val s with UB => Ok None | Ok bytes => store i (ms_push_script h m s bytes) end))
  | SClear i => with1 i (fun m => store i (ms_clear h m))
  | SParse i bytes => with1 i (fun m =>
      let! r := ms_parse h m bytes in
      match r with None => Ok None | Some (h', m') => Ok (Some (h', put l i (Some m'))) end)
  | SRead i => with1 i (fun m => let! _ := ms_read h m in Ok (Some st))
  | SDestroy i => with1 i (fun m => let! h' := ms_destroy h m in Ok (Some (h', put l i None)))
  end.
Fixpoint srun (st : sstate) (ops : list sop) : outcome (option sstate) :=
  match ops with
  | [] => Ok (Some st)
  | o :: t => let! r := sstep st o in match r with None => Ok None | Some st' => srun st' t end
  end.

(** Calls on Witness objects (Bitcoin.h:564-600). *)
Inductive wop :=
  | WNew
  | WCopy (i : nat)
  | WAssign (i j : nat)
  | WPush (i : nat) (data : list Z)
  | WClear (i : nat)
  | WParse (i : nat) (bytes : list Z)
  | WRead (i : nat)
  | WDestroy (i : nat).

Definition wstate := (heap * list (option mwitness))%type.
Definition wstep (st : wstate) (o : wop) : outcome (option wstate) :=
  let '(h, l) := st in
  let with1 i (k : mwitness -> outcome (option wstate)) := match obj l i with Some m => k m | None => Ok (Some st) end in
  let store i (r : outcome (heap * mwitness)) := let! x := r in Ok (Some (fst x, put l i (Some (snd x)))) in
  match o with
  | WNew => Ok (Some (h, l ++ [Some (mkMw None witness_new)]))
  | WCopy i => with1 i (fun m => let! x := mw_copy h m in Ok (Some (fst x, l ++ [Some (snd x)])))
  | WAssign i j => with1 i (fun d => with1 j (fun s => if Nat.eqb i j then Ok (Some st) else store i (mw_assign h d s)))
  | WPush i data => with1 i (fun m => store i (mw_push h m data))
  | WClear i => with1 i (fun m => store i (mw_clear h m))
  | WParse i bytes => with1 i (fun m =>
      let! r := mw_parse h m bytes in
      match r with None => Ok None | Some (h', m') => Ok (Some (h', put l i (Some m'))) end)
  | WRead i => with1 i (fun m => let! _ := mw_read h m in Ok (Some st))
  | WDestroy i => with1 i (fun m => let! h' := mw_destroy h m in Ok (Some (h', put l i None)))
  end.
Fixpoint wrun (st : wstate) (ops : list wop) : outcome (option wstate) :=
  match ops with
  | [] => Ok (Some st)
  | o :: t => let! r := wstep st o in match r with None => Ok None | Some st' => wrun st' t end
  end.
