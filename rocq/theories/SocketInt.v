(* socketwrapper.py over a socket whose recv() may also raise what the wrapper does
   not catch: KeyboardInterrupt while waiting, an exception raised by a signal
   handler.  (OSError and its subclasses, TimeoutError among them, are RError of
   Socket.v; the wrapper takes them for the end.) *)
From Verif Require Export Socket.
Local Open Scope Z_scope.

(* the results of successive recv() calls (socketwrapper.py:66-79) *)
Inductive irecv := IRecv (r : recv_result) | IRaise (e : exc).

(* socketwrapper.py:38-57 *)
Record isock := mkisock {
  i_pending : list irecv;           (* the network *)
  i_buffer : bytes;                 (* _buffer *)
  i_partial : bytes;                (* _partial *)
  i_encoding : Z;
  i_zlib : zlib }.

(* socketwrapper.py:59-79 _recv: an exception of recv() leaves everything as it was;
   the rest is sock_recv of Socket.v on the one result *)
Definition isock_recv (k : isock) : result bool * isock :=
  match i_pending k with
  | [] => (Ok false, k)
  | IRaise e :: p => (Raise e, mkisock p (i_buffer k) (i_partial k) (i_encoding k) (i_zlib k))
  | IRecv r :: p =>
      let '(ok, w) := sock_recv (mksock [r] (i_buffer k) (i_partial k) (i_encoding k) (i_zlib k)) in
      (ok, mkisock p (k_buffer w) (k_partial w) (i_encoding k) (i_zlib k))
  end.

(* socketwrapper.py:81-97 read *)
Fixpoint isock_read_loop (fuel : nat) (num : nat) (k : isock) : result bytes * isock :=
  if (length (i_buffer k) <? num)%nat then
    match fuel with
    | O => (Ok [], k)                                    (* unreachable *)
    | S f => let '(ok, k') := isock_recv k in
             match ok with
             | Ok true => isock_read_loop f num k'
             | Ok false => (Ok [], k')
             | Raise e => (Raise e, k')
             end
    end
  else (Ok (firstn num (i_buffer k)),
        mkisock (i_pending k) (skipn num (i_buffer k)) (i_partial k) (i_encoding k) (i_zlib k)).
(* socketwrapper.py:81-97 *)
Definition isock_read (num : nat) (k : isock) : result bytes * isock :=
  isock_read_loop (S (length (i_pending k))) num k.

(* socketwrapper.py:99-118 readline; the line read so far is a local variable *)
Fixpoint isock_readline_loop (fuel : nat) (line : bytes) (k : isock) : option (result bytes * isock) :=
  match fuel with
  | O => None
  | S f =>
      let '(d, k') := isock_read 1 k in
      match d with
      | Ok [x] => let line' := line ++ [x] in
                  if ends_crlf line' then Some (Ok line', k') else isock_readline_loop f line' k'
      | Ok _ => Some (Ok line, k')
      | Raise e => Some (Raise e, k')
      end
  end.
(* a bound for the loop of socketwrapper.py:99-118; not in the code *)
Fixpoint isock_drain (fuel : nat) (k : isock) : isock :=
  match fuel with
  | O => k
  | S f => isock_drain f (snd (isock_recv k))
  end.
(* a bound for the loop of socketwrapper.py:99-118; not in the code *)
Definition isock_avail (k : isock) : nat := length (i_buffer (isock_drain (length (i_pending k)) k)).
(* socketwrapper.py:99-118 *)
Definition isock_readline (k : isock) : result bytes * isock :=
  match isock_readline_loop (S (isock_avail k)) [] k with
  | Some r => r
  | None => (Ok [], k)                                   (* unreachable: C116_steady and C116_interrupted rest on it *)
  end.

(* socketwrapper.py:38-57 __init__: the initial recv may raise *)
Definition isock_open (pending : list irecv) (enc : Z) (z : zlib) : result isock :=
  let '(r, k) := isock_recv (mkisock pending [] [] enc z) in
  match r with Ok _ => Ok k | Raise e => Raise e end.

(* NMEAReader over the wrapper (nmeareader.py:84-85, 100-118) *)
Definition isread (cfg : rcfg) := read isock (isock_read 1) isock_readline cfg.
(* nmeareader.py:84-85, 100-118 *)
Definition isiterate (cfg : rcfg) := iterate isock (isock_read 1) isock_readline cfg.
