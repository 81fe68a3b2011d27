(* Model of /repo/src/pynmeagps/socketwrapper.py *)
From Verif Require Export Reader.
Local Open Scope Z_scope.

(* nmeatypes_core.py:57-66 *)
Definition ENCODE_CHUNKED := 1.  Definition ENCODE_GZIP := 2.
(* nmeatypes_core.py:57-66 *)
Definition ENCODE_COMPRESS := 4. Definition ENCODE_DEFLATE := 8.

(* results of successive recv() calls: data (empty = peer closed) or an
   OSError/TimeoutError; when the list is used up the peer has closed *)
(* socketwrapper.py:66-79 *)
Inductive recv_result := RData (d : bytes) | RError.

(* zlib.decompress with the three wbits settings: None = zlib.error *)
(* socketwrapper.py:175-184 *)
Record zlib := mkzlib { z_gzip : bytes -> option bytes; z_zlib : bytes -> option bytes; z_raw : bytes -> option bytes }.

(* socketwrapper.py:38-57 *)
Record sock := mksock {
  k_pending : list recv_result;     (* the network *)
  k_buffer : bytes;                 (* _buffer *)
  k_partial : bytes;                (* _partial *)
  k_encoding : Z;
  k_zlib : zlib }.

(* BytesIO.readline is cut_line (Reader.v); BytesIO.read(n): n < 0 reads all, and
   n must fit the platform's Py_ssize_t (64 bits) *)
(* io.BytesIO as used at socketwrapper.py:156-172 *)
Definition ssize_min := - 2 ^ 63.  Definition ssize_max := 2 ^ 63 - 1.
(* io.BytesIO as used at socketwrapper.py:156-172 *)
Definition bytesio_read (n : Z) (s : bytes) : result (bytes * bytes) :=
  if (n <? ssize_min) || (ssize_max <? n) then Raise OverflowError
  else if n <? 0 then Ok (s, []) else Ok (firstn (Z.to_nat n) s, skipn (Z.to_nat n) s).

(* socketwrapper.py:113, 160 *)
Definition ends_crlf (l : bytes) : bool :=
  match rev l with a :: b :: _ => N.eqb a c_lf && N.eqb b c_cr | _ => false end.

(* socketwrapper.py:175-184: on an error the remaining steps are skipped *)
Definition decompress (z : zlib) (enc : Z) (chunk : bytes) : bytes :=
  let step (flag : Z) (f : bytes -> option bytes) (x : bytes * bool) : bytes * bool :=
    let '(c, ok) := x in
    if ok && negb (Z.land enc flag =? 0) then
      match f c with Some c' => (c', true) | None => (c, false) end
    else (c, ok) in
  fst (step ENCODE_DEFLATE (z_raw z) (step ENCODE_COMPRESS (z_zlib z) (step ENCODE_GZIP (z_gzip z) (chunk, true)))).

(* socketwrapper.py:140-192 dechunk; the loop consumes at least one byte per
   round, so the length of the segment is enough fuel.  Only ValueError of int()
   is caught (line 164), not an exception of instream.read (line 169). *)
Fixpoint dechunk_loop (fuel : nat) (z : zlib) (enc : Z) (s : bytes) (chunks : bytes) : option (result (bytes * bytes)) :=
  match fuel with
  | O => None
  | S f =>
      let '(line, s1) := cut_line s in
      if negb (ends_crlf line) then Some (Ok (chunks, line))
      else match int16_of_bytes line with
           | Raise _ => Some (Ok (chunks, []))
           | Ok n =>
               if n =? 0 then Some (Ok (chunks, []))         (* final chunk *)
               else
                 match bytesio_read n s1 with
                 | Raise e => Some (Raise e)
                 | Ok (chunk, s2) =>
                     if negb (Z.of_nat (length chunk) =? n) then Some (Ok (chunks, line ++ chunk))
                     else
                       let '(_, s3) := cut_line s2 in
                       dechunk_loop f z enc s3 (chunks ++ decompress z enc chunk)
                 end
           end
  end.
(* socketwrapper.py:140-192 *)
Definition dechunk (z : zlib) (enc : Z) (segment : bytes) : option (result (bytes * bytes)) :=
  dechunk_loop (S (length segment)) z enc segment [].

(* socketwrapper.py:59-79 _recv; only OSError and TimeoutError are caught *)
Definition sock_recv (k : sock) : result bool * sock :=
  match k_pending k with
  | [] => (Ok false, k)
  | RError :: p => (Ok false, mksock p (k_buffer k) (k_partial k) (k_encoding k) (k_zlib k))
  | RData [] :: p => (Ok false, mksock p (k_buffer k) (k_partial k) (k_encoding k) (k_zlib k))
  | RData d :: p =>
      if negb (Z.land (k_encoding k) ENCODE_CHUNKED =? 0) then
        match dechunk (k_zlib k) (k_encoding k) (k_partial k ++ d) with
        | Some (Ok (chunks, partial)) =>
            (Ok true, mksock p (k_buffer k ++ chunks) partial (k_encoding k) (k_zlib k))
        | Some (Raise e) => (Raise e, mksock p (k_buffer k) (k_partial k) (k_encoding k) (k_zlib k))
        | None => (Ok true, mksock p (k_buffer k) (k_partial k) (k_encoding k) (k_zlib k))   (* unreachable *)
        end
      else (Ok true, mksock p (k_buffer k ++ d) (k_partial k) (k_encoding k) (k_zlib k))
  end.

(* socketwrapper.py:81-97 read; each round uses up one pending result *)
Fixpoint sock_read_loop (fuel : nat) (num : nat) (k : sock) : result bytes * sock :=
  if (length (k_buffer k) <? num)%nat then
    match fuel with
    | O => (Ok [], k)                                    (* unreachable *)
    | S f => let '(ok, k') := sock_recv k in
             match ok with
             | Ok true => sock_read_loop f num k'
             | Ok false => (Ok [], k')
             | Raise e => (Raise e, k')
             end
    end
  else (Ok (firstn num (k_buffer k)),
        mksock (k_pending k) (skipn num (k_buffer k)) (k_partial k) (k_encoding k) (k_zlib k)).
(* socketwrapper.py:81-97 *)
Definition sock_read (num : nat) (k : sock) : result bytes * sock :=
  sock_read_loop (S (length (k_pending k))) num k.

(* socketwrapper.py:99-118 readline *)
Fixpoint sock_readline_loop (fuel : nat) (line : bytes) (k : sock) : option (result bytes * sock) :=
  match fuel with
  | O => None
  | S f =>
      let '(d, k') := sock_read 1 k in
      match d with
      | Ok [x] => let line' := line ++ [x] in
                  if ends_crlf line' then Some (Ok line', k') else sock_readline_loop f line' k'
      | Ok _ => Some (Ok line, k')
      | Raise e => Some (Raise e, k')
      end
  end.
(* everything that could still arrive, as a bound for the number of rounds *)
(* a bound for the loop of socketwrapper.py:99-118; not in the code *)
Fixpoint sock_drain (fuel : nat) (k : sock) : sock :=
  match fuel with
  | O => k
  | S f => sock_drain f (snd (sock_recv k))
  end.
(* a bound for the loop of socketwrapper.py:99-118; not in the code *)
Definition sock_avail (k : sock) : nat := length (k_buffer (sock_drain (length (k_pending k)) k)).
(* socketwrapper.py:99-118 *)
Definition sock_readline (k : sock) : result bytes * sock :=
  match sock_readline_loop (S (sock_avail k)) [] k with
  | Some r => r
  | None => (Ok [], k)                                   (* unreachable (sock_readline_fuel) *)
  end.

(* socketwrapper.py:38-57 __init__: one initial recv, which may raise *)
Definition sock_open (pending : list recv_result) (enc : Z) (z : zlib) : result sock :=
  let '(r, k) := sock_recv (mksock pending [] [] enc z) in
  match r with Ok _ => Ok k | Raise e => Raise e end.
(* the wrapper as __init__ leaves it, if it does not raise *)
(* socketwrapper.py:38-57 *)
Definition sock_init (pending : list recv_result) (enc : Z) (z : zlib) : sock :=
  snd (sock_recv (mksock pending [] [] enc z)).

(* socketwrapper.py:81-97 read with any int: for num < 0 the loop is not entered and the
   slices count from the end of the buffer *)
Definition sock_read_int (num : Z) (k : sock) : result bytes * sock :=
  if num <? 0 then
    let m := (length (k_buffer k) - Z.to_nat (- num))%nat in
    (Ok (firstn m (k_buffer k)), mksock (k_pending k) (skipn m (k_buffer k)) (k_partial k) (k_encoding k) (k_zlib k))
  else sock_read (Z.to_nat num) k.
(* socketwrapper.py:130-138 in_waiting *)
Definition sock_in_waiting (k : sock) : nat := length (k_buffer k).
(* socketwrapper.py:194-203 buffer *)
Definition sock_buffer (k : sock) : bytes := k_buffer k.
(* socketwrapper.py:120-128 write: what send() returns or raises is returned or raised *)
Definition sock_write (send : bytes -> result Z) (data : bytes) (k : sock) : result Z * sock := (send data, k).

(* NMEAReader over a socket (nmeareader.py:84-85) *)
Definition sread (cfg : rcfg) := read sock (sock_read 1) sock_readline cfg.
(* nmeareader.py:84-85, 100-118 *)
Definition siterate (cfg : rcfg) := iterate sock (sock_read 1) sock_readline cfg.
