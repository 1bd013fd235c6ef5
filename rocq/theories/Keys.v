(** Counters, key derivation and the Hello/Acknowledge exchange.

    Sources: /repo/client/client_secure_channel.go (Open 269-390, calculatePSHA
    1789, getNextRequestHandle 1822, getNextSequenceNumber 1837),
    /repo/server/server_secure_channel.go (Open 184-270, getNextSequenceNumber,
    getNextTokenID, calculatePSHA 1515-1587), /repo/server/server.go
    (getNextChannelID 1077). *)
From Coq Require Import ZArith List Bool Strings.Byte.
From Verif Require Import Bytes Prim Chunk.
Import ListNotations.
Open Scope Z_scope.

(* ------------------------------------------------------------------ *)
(** * Counters shared by goroutines *)

(** Where a goroutine is in "for { old := Load; ...; if CompareAndSwap { return } }".
    All five counters of the code are this text. *)
Inductive cpos : Type := CIdle | CLoaded (old : Z).
Inductive cop : Type := CLoad (t : nat) | CCas (t : nat).
Record counter := mkCounter {
  ct_value : Z;
  ct_pos : nat -> cpos;
  ct_out : list (nat * Z)    (* what was handed out, oldest first, and to whom *)
}.
Definition counter_init (v : Z) : counter := mkCounter v (fun _ => CIdle) [].
Definition set_pos (f : nat -> cpos) (t : nat) (p : cpos) : nat -> cpos :=
  fun u => if Nat.eqb u t then p else f u.
(** client:1822-1849 server:1507-1537 server.go:1077-1089.  A failed swap starts over. *)
Definition counter_step (c : counter) (o : cop) : counter :=
  match o with
  | CLoad t => mkCounter (ct_value c) (set_pos (ct_pos c) t (CLoaded (ct_value c))) (ct_out c)
  | CCas t =>
      match ct_pos c t with
      | CIdle => c
      | CLoaded old =>
          if ct_value c =? old
          then mkCounter (next_counter old) (set_pos (ct_pos c) t CIdle) (ct_out c ++ [(t, next_counter old)])
          else mkCounter (ct_value c) (set_pos (ct_pos c) t CIdle) (ct_out c)
      end
  end.
Definition counter_run (v : Z) (ops : list cop) : counter := fold_left counter_step ops (counter_init v).

(* ------------------------------------------------------------------ *)
(** * Key derivation *)

Inductive pname : Type := PNone | PBasic128Rsa15 | PBasic256 | PBasic256Sha256 | PAes128 | PAes256.
Definition pol_of (p : pname) : policy :=
  match p with
  | PNone => pol_none
  | PBasic128Rsa15 => pol_basic128rsa15
  | PBasic256 => pol_basic256
  | PBasic256Sha256 => pol_basic256sha256
  | PAes128 => pol_aes128
  | PAes256 => pol_aes256
  end.

Inductive hash : Type := Sha1 | Sha256.
Definition hash_size (h : hash) : Z := match h with Sha1 => 20 | Sha256 => 32 end.
(** client:1791-1796 server:1541-1547 *)
Definition psha_hash (p : pname) : hash :=
  match p with PBasic128Rsa15 | PBasic256 => Sha1 | _ => Sha256 end.

(** copy(buf[m:m+len(p)], p) *)
Definition write_at (buf : bytes) (m : nat) (p : bytes) : bytes :=
  firstn m buf ++ p ++ skipn (m + length p) buf.

Record keyset := mkKeys { k_sign : bytes; k_enc : bytes; k_iv : bytes }.

Section Psha.
  (** HMAC of the given hash with key and message *)
  Variable hmac : hash -> bytes -> bytes -> bytes.

  (** client:1800-1817 server:1551-1568: [k] iterations left *)
  Fixpoint psha_loop (mac : bytes -> bytes) (size n : Z) (k : nat) (i : Z) (a seed out : bytes) : bytes :=
    match k with
    | O => out
    | S k' =>
        let a' := mac a in
        let buf2 := mac (a' ++ seed) in
        let m := size * i in
        let r := n - m in
        let r := if size <? r then size else r in
        psha_loop mac size n k' (i + 1) a' seed (write_at out (Z.to_nat m) (firstn (Z.to_nat r) buf2))
    end.
  (** client:1789 server:1539 calculatePSHA *)
  Definition psha (secret seed : bytes) (n : Z) (p : pname) : bytes :=
    let h := psha_hash p in
    let size := hash_size h in
    psha_loop (hmac h secret) size n (Z.to_nat (Z.quot (n + size - 1) size)) 0 seed seed
              (repeat x00 (Z.to_nat n)).

  (** copy(make([]byte, n), src) *)
  Definition copied (n : Z) (src : bytes) : bytes :=
    firstn (Z.to_nat n) src ++ repeat x00 (Z.to_nat n - length src).
  (** client:1442-1444 server:1106-1109 and the like: the three parts *)
  Definition split_keys (p : policy) (key : bytes) : keyset :=
    let jj := Nat.min (Z.to_nat (sig_key p)) (length key) in
    let kk := (jj + Nat.min (Z.to_nat (enc_key p)) (length (skipn jj key)))%nat in
    mkKeys (copied (sig_key p) key) (copied (enc_key p) (skipn jj key)) (copied (blk_size p) (skipn kk key)).
  Definition key_len (p : policy) : Z := sig_key p + enc_key p + blk_size p.
  (** client:1278-1281 1441 server:1105 1128 *)
  Definition derive (p : pname) (secret seed : bytes) : keyset :=
    split_keys (pol_of p) (psha secret seed (key_len (pol_of p)) p).
End Psha.

(* ------------------------------------------------------------------ *)
(** * Hello and Acknowledge *)

Definition t_hello : Z := tag 72 69 76 70.
Definition t_ack : Z := tag 65 67 75 70.

(** The limits of one end.  On the client "request" is what it sends, on the server
    what it receives. *)
Record ends := mkEnds {
  e_recv : Z; e_send : Z;
  e_max_req : Z; e_req_chunks : Z;     (* maxRequestMessageSize, maxRequestChunkCount *)
  e_max_res : Z; e_res_chunks : Z      (* maxResponseMessageSize, maxResponseChunkCount *)
}.

(** client:310-325 the Hello message, in a buffer of [cap] bytes *)
Definition hello_bytes (cap : Z) (c : ends) (url : bytes) : bytes :=
  put cap (put cap (put cap (put cap (put cap (put cap (put cap (put cap []
    (le_enc 4 t_hello)) (le_enc 4 (32 + Z.of_nat (length url)))) (le_enc 4 0)) (le_enc 4 (e_recv c)))
    (le_enc 4 (e_send c))) (le_enc 4 (e_max_res c))) (le_enc 4 (e_res_chunks c))) (write_string url).

(** server:194-247: fields of Hello.  The reader runs over the whole buffer, so
    [buf] may hold older bytes behind the message. *)
Definition read_hello : reader (Z * Z * Z * Z * bytes) :=
  bind (read_uint 4) (fun t => if negb (t =? t_hello) then bind (read_uint 4) (fun _ => fail) else
  bind (read_uint 4) (fun len => if len <? 28 then fail else
  bind (read_uint 4) (fun ver => if ver <? 0 then fail else
  bind (read_uint 4) (fun recv =>
  bind (read_uint 4) (fun send =>
  bind (read_uint 4) (fun size =>
  bind (read_uint 4) (fun chunks =>
  bind read_string (fun url => ret (recv, send, size, chunks, url))))))))).

(** server:249-264 limits from Hello, and the Ack *)
Definition ack_bytes (cap : Z) (s : ends) : bytes :=
  put cap (put cap (put cap (put cap (put cap (put cap (put cap []
    (le_enc 4 t_ack)) (le_enc 4 28)) (le_enc 4 0)) (le_enc 4 (e_recv s))) (le_enc 4 (e_send s)))
    (le_enc 4 (e_max_req s))) (le_enc 4 (e_req_chunks s)).
Definition server_accept (cap : Z) (s : ends) (buf : bytes) : option (ends * bytes) :=
  match read_hello buf with
  | Ok (recv, send, size, chunks, _) _ =>
      let s' := mkEnds (if send <? e_recv s then send else e_recv s)
                       (if recv <? e_send s then recv else e_send s)
                       (e_max_req s) (e_req_chunks s) size chunks in
      Some (s', ack_bytes cap s')
  | _ => None
  end.

(** client:332-380 *)
Definition client_accept (c : ends) (buf : bytes) : option ends :=
  match bind (read_uint 4) (fun t => if negb (t =? t_ack) then bind (read_uint 4) (fun _ => fail) else
        bind (read_uint 4) (fun len => if len <? 28 then fail else
        bind (read_uint 4) (fun ver => if ver <? 0 then fail else
        bind (read_uint 4) (fun send =>
        bind (read_uint 4) (fun recv =>
        bind (read_uint 4) (fun size =>
        bind (read_uint 4) (fun chunks => ret (mkEnds recv send size chunks (e_max_res c) (e_res_chunks c)))))))))
        buf with
  | Ok c' _ => Some c'
  | _ => None
  end.

(** Both ends: the client's buffer of [ccap] bytes and the server's of [scap], with
    [stale1] and [stale2] behind the received messages. *)
Definition handshake (ccap scap : Z) (c s : ends) (url stale1 stale2 : bytes) : option (ends * ends) :=
  match read_chunk scap (hello_bytes ccap c url) with
  | None => None
  | Some (hello, _) =>
      match server_accept scap s (hello ++ stale1) with
      | None => None
      | Some (s', ack) =>
          match read_chunk ccap ack with
          | None => None
          | Some (a, _) => match client_accept c (a ++ stale2) with Some c' => Some (c', s') | None => None end
          end
      end
  end.
