(** ucan/src/store.rs *)
From Verif Require Import Prelude Utf8 Cid Value Ext Json Ucan.

(* ---------------------------------------------------- UcanJwtStore, store.rs:64-93 *)

(** [self.read::<Ipld>(cid)] *)
Definition store_read (E : env) (c : cid) : M (option ipld) := fun st =>
  (e_read E (v_reads st) c, mkState (v_parser st) (v_ticks st) (S (v_reads st)) (v_checks st)).

(** [read_token] for the outcome of the underlying [read], store.rs:82-85 *)
Definition token_of_read (r : option ipld) : res (option bytes) :=
  match r with
  | Some (IBytes b) => if utf8_valid b then Ok (Some b) else Err EUtf8
  | _ => Err ENoUcanForCid
  end.

(** [read_token], store.rs:72-86 *)
Definition read_token (E : env) (c : cid) : M (option bytes) :=
  if negb (cid_codec c =? raw_codec)%N then lift (Err ECodec)
  else let! r := store_read E c in lift (token_of_read r).

(** [require_token], store.rs:65-70 *)
Definition require_token (E : env) (c : cid) : M bytes :=
  let! r := read_token E c in
  match r with
  | Some token => ret token
  | None => lift (Err ENoTokenForCid)
  end.

(* ------------------------------------------------------ MemoryStore, store.rs:95-130 *)

(** The shared HashMap<Cid, Vec<u8>>: an association list without duplicates.
    All clones of a MemoryStore share one map behind a mutex (store.rs:100-101),
    so operations of any number of clones are a sequence of atomic steps.  The
    mutex is assumed not to be poisoned. *)
Definition mstore := list (cid * bytes).

Fixpoint hget (c : cid) (s : mstore) : option bytes :=
  match s with
  | [] => None
  | (c', b) :: s' => if cid_eqb c c' then Some b else hget c s'
  end.

Fixpoint hinsert (c : cid) (b : bytes) (s : mstore) : mstore :=
  match s with
  | [] => [(c, b)]
  | (c', b') :: s' => if cid_eqb c c' then (c, b) :: s' else (c', b') :: hinsert c b s'
  end.

(** Encode<RawCodec> for Ipld: only byte strings. *)
Definition raw_encode (i : ipld) : res bytes :=
  match i with IBytes b => Ok b | _ => Err EStore end.

(** multihash code of Blake3-256 *)
Definition blake3_256 : N := 30.   (* 0x1e *)

(** [MemoryStore::read::<Ipld>], store.rs:107-115: decoding raw bytes cannot fail. *)
Definition mem_read (s : mstore) (c : cid) : res (option ipld) :=
  Ok (match hget c s with Some b => Some (IBytes b) | None => None end).

(** The CID computed by [write], store.rs:121-123 *)
Definition block_cid (X : ext) (block : bytes) : cid :=
  cid_new_v1 raw_codec blake3_256 (x_hash X blake3_256 block).

(** [MemoryStore::write], store.rs:117-129 *)
Definition mem_write (X : ext) (s : mstore) (i : ipld) : res cid * mstore :=
  match raw_encode i with
  | Ok block => let c := block_cid X block in (Ok c, hinsert c block s)
  | Err e => (Err e, s)
  | Panic p => (Panic p, s)
  | Diverged => (Diverged, s)
  end.

(** [write_token], store.rs:88-90 *)
Definition mem_write_token (X : ext) (s : mstore) (token : bytes) : res cid * mstore :=
  mem_write X s (IBytes token).

(** The operations any clone may perform. *)
Inductive store_op : Type :=
| SWrite (i : ipld)
| SRead (c : cid).

Inductive store_out : Type :=
| OWrite (r : res cid)
| ORead (r : res (option ipld)).

Definition store_step (X : ext) (s : mstore) (o : store_op) : store_out * mstore :=
  match o with
  | SWrite i => let '(r, s') := mem_write X s i in (OWrite r, s')
  | SRead c => (ORead (mem_read s c), s)
  end.

Fixpoint store_run (X : ext) (s : mstore) (ops : list store_op) : list store_out * mstore :=
  match ops with
  | [] => ([], s)
  | o :: ops' =>
      let '(x, s1) := store_step X s o in
      let '(xs, s2) := store_run X s1 ops' in (x :: xs, s2)
  end.
