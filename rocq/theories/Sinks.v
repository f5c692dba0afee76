(** * Sinks: where records are written.  BufferWARCWriter
    (/repo/warcio/warcwriter.py:145-160) on a temporary file, and the targets of
    capture_http (/repo/warcio/capture_http.py:246-268): a buffer, a file name, a writer.
    Simplifications: a temporary file is its bytes and a position; a file opened by name is
    looked at before the capture begins and after it has ended (nobody else writes to it); the
    connections made in the capture are closed before it ends (a record written after line 268
    would be written to a closed file). *)
From Coq Require Import List ZArith NArith Bool String.
From Verif Require Import PyBase Headers Streams Loader Writer Capture Commands.
Import ListNotations.
Open Scope Z_scope.

(** a file that can be read, written and sought: contents and position *)
Record tmp := mk_tmp { tmp_data : bytes; tmp_pos : Z }.
Definition tmp_new : tmp := mk_tmp [] 0.
(** out.write(b) at the position; all writes in a list *)
Definition tmp_write (b : bytes) (f : tmp) : tmp :=
  mk_tmp (takeZ (tmp_pos f) (tmp_data f) ++ b ++ dropZ (tmp_pos f + lenZ b) (tmp_data f)) (tmp_pos f + lenZ b).
Fixpoint tmp_writes (ws : list bytes) (f : tmp) : tmp :=
  match ws with [] => f | b :: t => tmp_writes t (tmp_write b f) end.
(** out.read(n), n absent or not negative *)
Definition tmp_read (n : option Z) (f : tmp) : bytes * tmp :=
  let rest := dropZ (tmp_pos f) (tmp_data f) in
  let b := match n with Some m => takeZ m rest | None => rest end in
  (b, mk_tmp (tmp_data f) (tmp_pos f + lenZ b)).
Definition tmp_seek (p : Z) (f : tmp) : tmp := mk_tmp (tmp_data f) p.

(** warcwriter.py:150-155 get_contents *)
Definition get_contents (f : tmp) : bytes * tmp :=
  let pos := tmp_pos f in
  let (b, f') := tmp_read None (tmp_seek 0 f) in
  (b, tmp_seek pos f').
(** warcwriter.py:157-159 get_stream: the stream is the file the writer writes to *)
Definition get_stream (f : tmp) : tmp := tmp_seek 0 f.

Section Buffer.
  Context (fuel : nat) (sha1 : bytes -> bytes) (k : kenv) (o : wopts).

  (** what is done with a BufferWARCWriter: write_record; get_contents; get_stream;
      read(n) on the stream that get_stream returned *)
  Inductive bop := BRecord (r : wrec) | BContents | BStream | BRead (n : option Z).
  Definition bstep (x : bop) (f : tmp) : bytes * tmp :=
    match x with
    | BRecord r => let '(_, ws, _) := write_record fuel sha1 k o r in ([], tmp_writes ws f)
    | BContents => get_contents f
    | BStream => ([], get_stream f)
    | BRead n => tmp_read n f
    end.
  Fixpoint bsteps (xs : list bop) (f : tmp) : list bytes * tmp :=
    match xs with
    | [] => ([], f)
    | x :: t => let (b, f) := bstep x f in let (bs, f) := bsteps t f in (b :: bs, f)
    end.
End Buffer.

(** capture_http.py:246-261: the first argument (a writer is given as the number of its output),
    append, and the gzip argument for the writer that is made *)
Inductive target := TBuffer | TName (name : str) | TWriter (i : nat).

(** lines 250-254 and WARCWriter(gzip=True) (recordbuilder.py): is the output compressed? *)
Definition target_gzip (t : target) (gzip : option bool) (given : bool) : bool :=
  match t with
  | TBuffer => match gzip with Some b => b | None => false end
  | TName _ => match gzip with Some b => b | None => true end
  | TWriter _ => given
  end.

(** line 257: open(name, 'ab') or open(name, 'xb'): what the file contains then; None: the
    file exists (FileExistsError) or cannot be opened *)
Definition open_target (can_write : str -> bool) (fs : files) (name : str) (append : bool) : option bytes :=
  if negb (can_write name) then None
  else match fs name with
       | Some b => if append then Some b else None
       | None => Some []
       end.

Section Captured.
  Context (fuel : nat) (sha1 : bytes -> bytes) (k : kenv) (can_write : str -> bool).

  (** capture_http(name, append=..., gzip=...) around the operations [ops], which use writer 0 for
      the file: None if the file cannot be opened, else the results and the files afterwards *)
  Definition capture_file (fs : files) (name : str) (append : bool) (gzip : option bool) (opts : wopts)
             (flt : option (wrec -> wrec -> option wrec * option wrec)) (ip : bool) (t : nat) (ops : list op)
    : option (list (res unit) * files) :=
    match open_target can_write fs name append with
    | None => None
    | Some old =>
        let o := mk_wopts (wo_version opts) (wo_filter opts) (target_gzip (TName name) gzip false) in
        let (xs, w) := run fuel sha1 k (Enter t (mk_cf flt ip 0 o) :: ops ++ [Exit t]) (mk_world [] [] [] [old]) in
        Some (xs, set_file name (nth 0 (wd_outs w) []) fs)
    end.
End Captured.
