(** Addresses: src/Script.cpp, src/Bitcoin.cpp. *)
From Verif Require Import Base.Bytes Model.Conversion Model.Stream Model.Script Model.Tx Model.Sign Model.Bech32 Model.Networks.
Open Scope Z_scope.

(** memcmp(address, prefix, strlen(prefix)) == 0. [address] without its terminating NUL.
    When [address] is shorter than the prefix the comparison meets a difference at
    the latest at the NUL; that memcmp looks no further is taken for granted. *)
Definition starts_with (prefix address : list Z) : bool :=
  if list_eq_dec Z.eq_dec (firstn (length prefix) address) prefix then true else false.

(** strlen(s) of a buffer, and the characters in front of the NUL. *)
Definition strlen (b : list Z) : Z := Z.of_nat (count_while (fun c => negb (c =? 0)) b).

Section Addresses.
(** Hash.cpp: functions of the bytes given. *)
Variable dsha : list Z -> list Z.
Variable hash160 : list Z -> list Z.

(** Script.cpp:140-209 [Script::fromAddress(address)] on a script [s]. The result of
    calloc is taken to be non-NULL (at most 42 bytes). addr[21] and prog[32] are not initialised by the
    code and only what was decoded into them is read. *)
Definition script_fromAddress (s : script) (address : list Z) : outcome script :=
  let s0 := script_clear s in
  let set (data : list Z) := mkScript data (len data) (sc_lenLen s0) (sc_status s0) (sc_parsed s0) in
  if len address >? 100 then Ok s0
  else
    match find (fun n => starts_with (n_bech32 n) address) networks with
    | Some n =>
        let! r := segwit_addr_decode (zeros 32) (n_bech32 n) address in
        match r with
        | None => Ok s0
        | Some (ver, prog, prog_len) =>
            Ok (set ([u8 ver; u8 prog_len] ++ firstn (Z.to_nat prog_len) prog))
        end
    | None =>
        let '(l, addr) := fromBase58Check dsha address (zeros 21) in
        if negb (l =? 21) then Ok s0
        else
          let a0 := nth 0 addr 0 in
          let hash := firstn 20 (skipn 1 addr) in
          match find (fun n => (a0 =? n_p2pkh n) || (a0 =? n_p2sh n)) networks with
          | None => Ok s0
          | Some n =>
              if a0 =? n_p2pkh n then Ok (set ([118; 169; 20] ++ hash ++ [136; 172]))
              else Ok (set ([169; 20] ++ hash ++ [135]))
          end
    end.

(** Script.cpp:377-383, 390-396: the text is copied into the caller's zeroed buffer. *)
Definition copy_out (buffer address : list Z) : Z * list Z :=
  let l := strlen address in
  if l >? len buffer then (0, zeros (length buffer))
  else (l, firstn (Z.to_nat l) address ++ zeros (length buffer - Z.to_nat l)).

(** Script.cpp:367-406 [Script::address(buffer, len, network)]: return value and buffer. *)
Definition script_address (s : script) (buffer : list Z) (n : network) : outcome (Z * list Z) :=
  match script_type_of s with
  | P2PKH =>
      let addr := n_p2pkh n :: firstn 20 (skipn 3 (sc_arr s)) in
      Ok (copy_out buffer (snd (toBase58Check dsha addr (zeros 40))))
  | P2SH =>
      let addr := n_p2sh n :: firstn 20 (skipn 2 (sc_arr s)) in
      Ok (copy_out buffer (snd (toBase58Check dsha addr (zeros 40))))
  | P2WPKH | P2WSH =>
      let! r := segwit_addr_encode (zeros 76) (n_bech32 n) (at_ s 0) (firstn (Z.to_nat (at_ s 1)) (skipn 2 (sc_arr s))) in
      Ok (copy_out buffer (snd r))
  | _ => Ok (0, zeros (length buffer))
  end.

(** Bitcoin.cpp:372-385 [PublicKey::legacyAddress(address, len, network)]; [sec] are the
    bytes of the public key. *)
Definition legacyAddress (sec buffer : list Z) (n : network) : Z * list Z :=
  toBase58Check dsha (n_p2pkh n :: hash160 sec) (zeros (length buffer)).
(** Bitcoin.cpp:393-404 [PublicKey::segwitAddress]. *)
Definition segwitAddress (sec buffer : list Z) (n : network) : outcome (Z * list Z) :=
  if len buffer <? 76 then Ok (0, zeros (length buffer))
  else
    let! r := segwit_addr_encode (zeros (length buffer)) (n_bech32 n) 0 (hash160 sec) in
    Ok (76, snd r).
(** Bitcoin.cpp:412-426 [PublicKey::nestedSegwitAddress]. *)
Definition nestedSegwitAddress (sec buffer : list Z) (n : network) : Z * list Z :=
  toBase58Check dsha (n_p2sh n :: hash160 ([0; 20] ++ hash160 sec)) (zeros (length buffer)).
End Addresses.
