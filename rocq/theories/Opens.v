(** Streams opened and closed: corec/corec/helpers/file/streams.c 199-226 (StreamOpen, StreamClose), 228-258 (GetStream, the
    creation), corec/corec/helpers/file/bufstream.c 36-51 (BufStream, BufDelete), file_libc.c 231-241 (Delete), node.c 1436-1440.

    Simplified: streams are used by one holder, so the only reference is given up by NodeDelete; what is read and written is not
    looked at here; a stream has at most one handle of the system. *)
From Verif Require Import Base Tree Stream Dirs.

(** err.h 22. *)
Definition E_NEED_MORE_DATA : Z := -6.

(** The nodes of streams: a stream with its handle, or a buffer (bufstream.c 13-22) over a stream. *)
Inductive snode := NFile (h : option nat) | NBuf (inner : option nat).
(** The nodes with their addresses, the next address, the open handles and the next of them. *)
Record heap := mkHeap { h_nodes : list (nat * snode); h_next : nat; h_fds : list nat; h_nfd : nat }.

Fixpoint take (k : nat) (l : list (nat * snode)) : option (snode * list (nat * snode)) :=
  match l with
  | [] => None
  | (j, x) :: l => if (j =? k)%nat then Some (x, l) else match take k l with Some (y, l) => Some (y, (j, x) :: l) | None => None end
  end.
(** NodeCreate: memory is there or not. *)
Definition create (h : heap) (x : snode) (memory : bool) : heap * option nat :=
  if memory then (mkHeap ((h_next h, x) :: h_nodes h) (S (h_next h)) (h_fds h) (h_nfd h), Some (h_next h)) else (h, None).
(** NodeDelete with BufDelete, bufstream.c 46-51, and Delete, file_libc.c 231-241; a node that is not there, or a handle closed
    twice, is [Bad].  The node leaves the heap before its stream does; there is no difference as no stream leads back to it. *)
Fixpoint node_delete (fuel : nat) (h : heap) (k : nat) : res heap :=
  match fuel with
  | O => Fuel
  | S fuel =>
      match take k (h_nodes h) with
      | None => Bad
      | Some (NFile fd, l) => do o <- close fd (h_fds h); Ok (mkHeap l (h_next h) o (h_nfd h))
      | Some (NBuf None, l) => Ok (mkHeap l (h_next h) (h_fds h) (h_nfd h))
      | Some (NBuf (Some j), l) => node_delete fuel (mkHeap l (h_next h) (h_fds h) (h_nfd h)) j
      end
  end.
Definition delete_node (h : heap) (o : option nat) : res heap := match o with None => Ok h | Some k => node_delete (length (h_nodes h)) h k end.
(** A field of a node is set. *)
Definition put (h : heap) (k : nat) (x : snode) : heap := mkHeap (map (fun p => if (Datatypes.fst p =? k)%nat then (k, x) else p) (h_nodes h)) (h_next h) (h_fds h) (h_nfd h).
(** Stream_Open answers [err]; it takes a handle or not. *)
Definition stream_open (h : heap) (k : nat) (takes : bool) : heap :=
  if takes then put (mkHeap (h_nodes h) (h_next h) (h_nfd h :: h_fds h) (S (h_nfd h))) k (NFile (Some (h_nfd h))) else h.

(** StreamOpen, 199-221: whether the stream can be created (its protocol is known, and there is memory), what Stream_Open answers, whether
    SFLAG_BUFFERED is given and the buffer can be created. *)
Definition open_stream (h : heap) (known : bool) (err : Z) (takes buffered memory : bool) : res (heap * option nat) :=
  let (h, file) := create h (NFile None) known in
  match file with
  | None => Ok (h, None)
  | Some k =>
      let h := stream_open h k takes in
      if negb (err =? ERR_NONE) && negb (err =? E_NEED_MORE_DATA) then do h <- delete_node h (Some k); Ok (h, None)
      else if buffered then
        let (h, buf) := create h (NBuf None) memory in
        match buf with
        | Some b => Ok (put h b (NBuf (Some k)), Some b)
        | None => Ok (h, Some k)
        end
      else Ok (h, Some k)
  end.

(** A program that opens and closes streams; it holds those it has open in a list and closes the [i]th (StreamClose(NULL) when there
    is none). *)
Inductive scall := SOpen (known : bool) (err : Z) (takes buffered memory : bool) | SClose (i : nat).
Definition without {A} (i : nat) (l : list A) : list A := firstn i l ++ skipn (S i) l.
Definition sstep (h : heap) (held : list nat) (c : scall) : res (heap * list nat) :=
  match c with
  | SOpen known err takes buffered memory =>
      do r <- open_stream h known err takes buffered memory;
      Ok (Datatypes.fst r, match Datatypes.snd r with Some k => held ++ [k] | None => held end)
  | SClose i => do h <- delete_node h (nth_error held i); Ok (h, without i held)
  end.
Fixpoint sruns (h : heap) (held : list nat) (l : list scall) : res (heap * list nat) :=
  match l with [] => Ok (h, held) | c :: l => do r <- sstep h held c; sruns (Datatypes.fst r) (Datatypes.snd r) l end.
(** Nothing is open, in a process with other handles. *)
Definition sstart (others : list nat) (nfd : nat) : heap := mkHeap [] 0 others nfd.
