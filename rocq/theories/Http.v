(* Model of examples/webserver/gpshttpserver.py: what the request handler sends for a GET request.
   SIMPLIFICATIONS: the files of the working directory are a function of the name, with the locale's encoding
   UTF-8; guess_type (http.server) is a parameter of the model; send_response/send_header/end_headers appear as one
   step that sends the status and the content type (they flush one buffer: http/server.py end_headers), wfile.write as
   another.  The TCP connection, the request line's parser and the headers Server and Date are not modelled. *)
From Verif Require Import PyBase PyText Message Server.
Local Open Scope Z_scope.

(* gpshttpserver.py:30-33 *)
Definition HTML : pystr := u "/index.html".
(* gpshttpserver.py:31 *)
Definition CSS : pystr := u "/styles.css".
(* gpshttpserver.py:32 *)
Definition JS : pystr := u "/scripts.js".
(* gpshttpserver.py:33 *)
Definition ICON : pystr := u "/favicon.ico".

(* what is written to the connection (gpshttpserver.py:104-107) *)
Inductive sent := Head (status : Z) (content_type : pystr) | Body (b : bytes).
(* why the handler was left: FileNotFoundError, UnicodeDecodeError (gpshttpserver.py:95), or what get_data, guess_type or
   encode raised *)
Inductive failure := NoFile | NotText | Failed (e : exc).

(* text mode of open(): universal newlines (gpshttpserver.py:95) *)
Fixpoint newlines (s : pystr) : pystr :=
  match s with
  | [] => []
  | c :: r =>
      if (c =? 13)%N then 10%N :: match r with
                                  | d :: r' => if (d =? 10)%N then newlines r' else newlines r
                                  | [] => []
                                  end
      else c :: newlines r
  end.

(* open(name).read() (gpshttpserver.py:95) *)
Definition read_text (fs : pystr -> option bytes) (name : pystr) : pystr + failure :=
  match fs name with
  | None => inr NoFile
  | Some b => match utf8_decode b with None => inr NotText | Some s => inl (newlines s) end
  end.

(* do_GET (gpshttpserver.py:81-107) *)
Definition do_GET (fs : pystr -> option bytes) (guess : pystr -> result pystr) (gps : result pystr) (path : pystr)
  : list sent * option failure :=
  let path := if str_eqb path (u "/") then HTML else path in
  match guess path with
  | Raise e => ([], Some (Failed e))
  | Ok mimetype =>
      let answer :=
        if str_in path [HTML; JS; CSS; ICON] then
          match read_text fs (tl path) with inl t => inl (t, 200, mimetype) | inr f => inr f end
        else if str_eqb path (u "/gps") then
          match gps with Ok t => inl (t, 200, u "application/json") | Raise e => inr (Failed e) end
        else inl (u "Unknown Request", 501, mimetype) in
      match answer with
      | inr f => ([], Some f)
      | inl (res, rc, mt) =>
          match utf8_encode res with
          | Ok b => ([Head rc mt; Body b], None)
          | Raise e => ([Head rc mt], Some (Failed e))
          end
      end
  end.
