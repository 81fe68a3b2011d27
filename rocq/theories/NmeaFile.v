(* Model of examples/nmeafile.py and of the reading loop of examples/nmeasocket.py.
   SIMPLIFICATIONS: the files are a function from names to contents; what is printed is a list of texts, one per call of print(); the error
   lines of errhandler are kept in a list of their own (their order relative to the other lines is lost). *)
From Verif Require Import Message Reader.
Local Open Scope Z_scope.

(* main( **dict(arg.split("=") for arg in argv[1:])) (nmeafile.py:57-59; the same line ends every example program):
   dict() raises ValueError for an element that is not a pair *)
Fixpoint command_line (d : list (pystr * pystr)) (args : list pystr) : result (list (pystr * pystr)) :=
  match args with
  | [] => Ok d
  | a :: r => match split_all 61 a with
              | [k; v] => command_line (dict_set k v d) r
              | _ => Raise ValueError
              end
  end.
(* kwargs.get(name, default) (nmeafile.py:37) *)
Definition kwarg (name default : pystr) (kw : list (pystr * pystr)) : pystr :=
  match lookup name kw with Some v => v | None => default end.

(* how the program ended (nmeafile.py:32-54) *)
Inductive ending := Completed | FileNotFound | Uncaught (e : exc) | Unfinished.

(* print(parsed_data) (nmeafile.py:47-49) *)
Definition shown_as (m : option msg) : result pystr :=
  match m with Some m => str_of_msg m | None => Ok (u "None") end.
(* the for loop (nmeafile.py:47-49): what is printed, and the exception of str(), if any *)
Fixpoint print_all (l : list (option msg)) : list pystr * option exc :=
  match l with
  | [] => ([], None)
  | m :: r => match shown_as m with
              | Raise e => ([], Some e)
              | Ok t => let '(ts, x) := print_all r in (t :: ts, x)
              end
  end.

(* NMEAReader(stream, nmeaonly=False, quitonerror=False, errorhandler=errhandler) (nmeafile.py:43-45): False is 0; errhandler prints and
   returns (nmeafile.py:22-27); the other arguments have their defaults (nmeareader.py:54-64) *)
Definition file_cfg : rcfg := mkrcfg 0 1 false 0 (Some (fun _ => None)) [].

(* main (nmeafile.py:30-54): printed lines, calls of the error handler, ending *)
Definition nmeafile (fs : pystr -> option bytes) (argv : list pystr) : list pystr * list event * ending :=
  match command_line [] argv with
  | Raise e => ([], [], Uncaught e)
  | Ok kw =>
      let filename := kwarg (u "filename") (u "nmeadata.log") kw in
      let opening := [10%N] ++ u "Opening file " ++ filename ++ u "..." ++ [10%N] in
      match fs filename with
      | None => ([opening], [], FileNotFound)
      | Some content =>
          let n := S (length content) in
          match fiterate file_cfg n n content with
          | None => ([opening], [], Unfinished)
          | Some (items, x, ev, _) =>
              let '(ts, e) := print_all (map snd items) in
              match e, x with
              | Some e, _ => (opening :: ts, ev, Uncaught e)
              | None, Some e => (opening :: ts, ev, Uncaught e)
              | None, None =>
                  (opening :: ts ++ [[10%N] ++ dec_of_N (N.of_nat (length items)) ++ u " messages read." ++ [10%N]; [10%N] ++ u "Processing Complete"],
                   ev, Completed)
              end
          end
      end
  end.
