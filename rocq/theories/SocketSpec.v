(* Specifications for sockets and chunked transfer encoding *)
From Verif Require Import Message Reader Socket Spec ReaderSpec.
Local Open Scope N_scope.

(* the bytes delivered by a list of recv() results *)
Definition data (l : list recv_result) : bytes :=
  flat_map (fun r => match r with RData d => d | RError => [] end) l.

(* a recv() that failed: an exception, or b"" (peer closed) *)
Definition failure (r : recv_result) : Prop := r = RError \/ r = RData [].

(* the bytes a call returned: none if it raised *)
Definition got (d : result bytes) : bytes := match d with Ok x => x | Raise _ => [] end.

(* successive calls of read(n) and readline() on one socket, with their results *)
Inductive call := CRead (n : nat) | CReadline.
Definition result_of (c : call) (k : sock) : result bytes * sock :=
  match c with CRead n => sock_read n k | CReadline => sock_readline k end.
Inductive calls : sock -> list (call * result bytes) -> sock -> Prop :=
| calls_none k : calls k [] k
| calls_more k c d k1 l k2 : result_of c k = (d, k1) -> calls k1 l k2 -> calls k ((c, d) :: l) k2.

(* plain: no chunked transfer encoding *)
Definition plain_sock (k : sock) : Prop := Z.testbit (k_encoding k) 0 = false.
(* every recv() returns data until the peer closes *)
Definition steady (k : sock) : Prop := Forall (fun r => exists d, r = RData d /\ d <> []) (k_pending k).
(* everything a socket will deliver *)
Definition contents (k : sock) : bytes := k_buffer k ++ data (k_pending k).

(* every LF follows a CR (a LF at the very beginning apart) *)
Definition crlf_lines (s : bytes) : Prop :=
  forall a b, s = a ++ lf :: b -> a = [] \/ exists a', a = a' ++ [cr].

(* ------------------------------------------------------ chunked encoding *)
(* a hexadecimal digit, of either case, and its value *)
Definition hex_digit_is (c v : N) : Prop :=
  v < 16 /\ (nth_error (u "0123456789ABCDEF") (N.to_nat v) = Some c
             \/ nth_error (u "0123456789abcdef") (N.to_nat v) = Some c).
(* a chunk-size text and its value *)
Inductive hex_number : bytes -> N -> Prop :=
| hex_one c v : hex_digit_is c v -> hex_number [c] v
| hex_more s n c v : hex_number s n -> hex_digit_is c v -> hex_number (s ++ [c]) (n * 16 + v).

(* a chunk: size text and data (of less than 2^63 bytes) *)
Definition chunk := (bytes * bytes)%type.
Definition chunk_ok (c : chunk) : Prop :=
  snd c <> [] /\ hex_number (fst c) (N.of_nat (length (snd c))) /\ N.of_nat (length (snd c)) < 2 ^ 63.
(* without the closing CR LF / with it *)
Definition chunk_head (c : chunk) : bytes := fst c ++ [cr; lf] ++ snd c.
Definition chunk_text (c : chunk) : bytes := chunk_head c ++ [cr; lf].

(* [s] is cut after the data of a chunk, or between the CR and the LF that close it *)
Definition bad_cut (cs : list chunk) (s : bytes) : Prop :=
  exists c1 c c2, cs = c1 ++ c :: c2
    /\ (s = flat_map chunk_text c1 ++ chunk_head c \/ s = flat_map chunk_text c1 ++ chunk_head c ++ [cr]).

(* decompressing one chunk: gzip, then zlib, then raw deflate, each if its flag
   is set; on the first failure what has been obtained so far is kept *)
Inductive inflated (z : zlib) (enc : Z) : bytes -> bytes -> Prop :=
| inflated_steps a b c d :
    ((Z.testbit enc 1 = false /\ b = a) \/ (Z.testbit enc 1 = true /\ z_gzip z a = Some b)) ->
    ((Z.testbit enc 2 = false /\ c = b) \/ (Z.testbit enc 2 = true /\ z_zlib z b = Some c)) ->
    ((Z.testbit enc 3 = false /\ d = c) \/ (Z.testbit enc 3 = true /\ z_raw z c = Some d)) ->
    inflated z enc a d
| inflated_gzip a : Z.testbit enc 1 = true -> z_gzip z a = None -> inflated z enc a a
| inflated_zlib a b :
    ((Z.testbit enc 1 = false /\ b = a) \/ (Z.testbit enc 1 = true /\ z_gzip z a = Some b)) ->
    Z.testbit enc 2 = true -> z_zlib z b = None -> inflated z enc a b
| inflated_raw a b c :
    ((Z.testbit enc 1 = false /\ b = a) \/ (Z.testbit enc 1 = true /\ z_gzip z a = Some b)) ->
    ((Z.testbit enc 2 = false /\ c = b) \/ (Z.testbit enc 2 = true /\ z_zlib z b = Some c)) ->
    Z.testbit enc 3 = true -> z_raw z c = None -> inflated z enc a c.
