(** Reading of files and documents in pieces: FileChunkReader.cc, HttpChunkReader.cc, ChunkReaderXmlInputCtx.cc and the
    readers which DefaultChunkReaderFactory.cc keeps.  Left out: the mutexes, the texts of log messages, directories,
    which fopen opens, too, the buffer of stdio, which may keep bytes of a file that has changed, and a context without
    a reader. *)
From Coq Require Import NArith ZArith PeanoNat String List Bool.
From Verif Require Import Base AxesModel.
Import ListNotations.
Local Open Scope list_scope.
Local Open Scope nat_scope.

(** ** Files *)
(** the bytes of a file are those of its inode; an open file keeps the inode, whatever becomes of the name *)
Record disk := mkDisk { d_names : string -> option nat; d_bytes : nat -> list N; d_next : nat }.
Definition fput {A B} (eqb : A -> A -> bool) (f : A -> B) (k : A) (v : B) : A -> B := fun x => if eqb x k then v else f x.

(** write of [bytes] to [buffer]; outside of it is undefined *)
Definition put (bytes buffer : list N) : outcome (list N) :=
  if length buffer <? length bytes then UB else Ok (bytes ++ skipn (length bytes) buffer).
(** FileChunkReader::read, FileChunkReader.cc:67-82: the position is an off_t; fread gives what there is *)
Definition file_read (content : list N) (off count : N) (buffer : list N) : outcome (list N) :=
  if (2 ^ 63 <=? off)%N then Throw
  else
    let got := firstn (N.to_nat count) (skipn (N.to_nat off) content) in
    do b <- put got buffer;
    if (N.of_nat (length got) =? count)%N then Ok b else Throw.

(** ** Servers *)
(** the answer to HEAD: the length, -1 if there is none (CURLINFO_CONTENT_LENGTH_DOWNLOAD_T), or an error; the chunks
    sent for a range, and whether the transfer ends without an error of curl.  The status of the answer is not an error. *)
Record server := mkServer { sv_head : option Z; sv_get : N -> N -> list (list N) * bool }.
(** the conversion from curl_off_t to size_t *)
Definition size_of (z : Z) : N := Z.to_N (z mod 2 ^ 64).
(** HttpChunkReader::read, HttpChunkReader.cc:109-133, with [http_read] for the callbacks *)
Definition http_get (sv : server) (size off count : N) (buffer : list N) : outcome (list N) :=
  do b <- http_read size (fun a z => fst (sv_get sv a z)) off count buffer;
  if snd (sv_get sv off (sub64 (add64 off count) 1)) then Ok b else Throw.

(** ** Documents *)
Definition to_int (z : Z) : Z := ((z + 2 ^ 31) mod 2 ^ 32 - 2 ^ 31)%Z.
(** ChunkReaderXmlInputCtx::read, ChunkReaderXmlInputCtx.cc:34-52: the answer, the buffer and the new offset.  len is an
    int, the offset a size_t.  Simplified: after an exception the buffer is as before; libxml2 does not look at it. *)
Definition xml_read (size : N) (read : N -> N -> list N -> outcome (list N)) (off : N) (buffer : list N) (len : Z)
    : outcome (Z * list N * N) :=
  if (len <? 0)%Z then Ok ((-1)%Z, buffer, off)
  else
    let len := if (size <=? add64 off (Z.to_N len))%N then to_int (Z.of_N (sub64 size off)) else len in
    if (len =? 0)%Z then Ok (0%Z, buffer, off)
    else
      match read off (size_of len) buffer with
      | Ok b => Ok (len, b, add64 off (size_of len))
      | Throw => Ok ((-1)%Z, buffer, off)
      | UB => UB
      | Hang => Hang
      end.
(** the calls of the parser, each with a buffer of the length it names: the answers, and the bytes of each; a negative
    answer ends the parsing *)
Fixpoint xml_run (size : N) (read : N -> N -> list N -> outcome (list N)) (off : N) (buffers : list (list N))
    : outcome (list (Z * list N)) :=
  match buffers with
  | [] => Ok []
  | b :: r =>
      do (nb, off') <- xml_read size read off b (Z.of_nat (length b));
      let (n, b') := nb in
      if (n <? 0)%Z then Ok [(n, [])]
      else do l <- xml_run size read off' r; Ok ((n, firstn (Z.to_nat n) b') :: l)
  end.

(** ** Readers *)
(** a reader: its address, and what it reads *)
Inductive reader :=
| File (id : nat) (path : string) (inode : nat) (size : N)
| Http (id : nat) (url : string) (size : N).
Record world := mkW { w_disk : disk; w_net : string -> option server; w_file : option reader; w_http : option reader; w_id : nat }.
Definition path_of (r : reader) : string := match r with File _ p _ _ => p | Http _ u _ => u end.
Definition held (r : option reader) (p : string) : option reader :=
  match r with Some x => if String.eqb (path_of x) p then Some x else None | None => None end.
(** the constructor, FileChunkReader.cc:42-60 *)
Definition open_file (w : world) (p : string) : outcome reader :=
  match d_names (w_disk w) p with
  | None => Throw
  | Some i => Ok (File (w_id w) p i (N.of_nat (length (d_bytes (w_disk w) i))))
  end.
(** the constructor, HttpChunkReader.cc:74-95 *)
Definition open_http (w : world) (u : string) : outcome reader :=
  match w_net w u with
  | None => Throw
  | Some sv => match sv_head sv with None => Throw | Some n => Ok (Http (w_id w) u (size_of n)) end
  end.
(** fileReaderFor and httpReaderFor, DefaultChunkReaderFactory.cc:53-66 *)
Definition file_for (w : world) (p : string) : outcome (reader * world) :=
  match held (w_file w) p with
  | Some r => Ok (r, w)
  | None => do r <- open_file w p; Ok (r, mkW (w_disk w) (w_net w) (Some r) (w_http w) (S (w_id w)))
  end.
Definition http_for (w : world) (u : string) : outcome (reader * world) :=
  match held (w_http w) u with
  | Some r => Ok (r, w)
  | None => do r <- open_http w u; Ok (r, mkW (w_disk w) (w_net w) (w_file w) (Some r) (S (w_id w)))
  end.
(** readerFor, lines 41-51 *)
Definition reader_for (w : world) (url : string) : outcome (reader * world) :=
  if prefix "http://" url || prefix "https://" url then http_for w url
  else if prefix "file:" url then file_for w (substring 5 (String.length url - 5) url)
  else file_for w url.

(** what the reader reads *)
Definition read_of (w : world) (r : reader) : N -> N -> list N -> outcome (list N) :=
  match r with
  | File _ _ i _ => file_read (d_bytes (w_disk w) i)
  | Http _ u n => match w_net w u with Some sv => http_get sv n | None => fun _ _ _ => Throw end
  end.
Definition size_of_reader (r : reader) : N := match r with File _ _ _ n => n | Http _ _ n => n end.

(** ** Programs *)
(** requests for readers, and what else happens: a file gets other bytes, or a name another file, or none *)
Inductive op := Ask (url : string) | Rewrite (p : string) (bytes : list N) | Replace (p : string) (bytes : list N) | Remove (p : string).
Definition on_disk (w : world) (d : disk) : world := mkW d (w_net w) (w_file w) (w_http w) (w_id w).
(** a request which throws leaves everything as it is *)
Definition step (w : world) (o : op) : world :=
  let d := w_disk w in
  match o with
  | Ask u => match reader_for w u with Ok (_, w') => w' | _ => w end
  | Rewrite p b =>
      match d_names d p with
      | Some i => on_disk w (mkDisk (d_names d) (fput Nat.eqb (d_bytes d) i b) (d_next d))
      | None => on_disk w (mkDisk (fput String.eqb (d_names d) p (Some (d_next d))) (fput Nat.eqb (d_bytes d) (d_next d) b) (S (d_next d)))
      end
  | Replace p b =>
      on_disk w (mkDisk (fput String.eqb (d_names d) p (Some (d_next d))) (fput Nat.eqb (d_bytes d) (d_next d) b) (S (d_next d)))
  | Remove p => on_disk w (mkDisk (fput String.eqb (d_names d) p None) (d_bytes d) (d_next d))
  end.
Definition run (ops : list op) (w : world) : world := fold_left step ops w.
