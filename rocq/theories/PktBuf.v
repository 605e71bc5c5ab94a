(** PktBuf: packet buffers (core.c 96-180, libmctp.h 51-70). *)
From Verif Require Import Base Prog.

(** libmctp.h 53-58 struct mctp_pktbuf.  [pk_id] is a ghost identity of the heap
    object (never reused), [pk_data] the flexible array member, whose length is
    the allocated length.  The [next] link is modelled in Queue.v. *)
Record pktbuf := mkPkt {
  pk_id : Z;
  pk_start : Z;
  pk_end : Z;
  pk_size : Z;
  pk_hdr : Z;            (* mctp_hdr_off *)
  pk_data : list Z }.

(** core.c 101, 112-118 mctp_pktbuf_alloc, the part after the allocation: [psz], [phd],
    [ptr] are binding->pkt_size, pkt_header and pkt_trailer. *)
Definition pktbuf_mk (id psz phd ptr len : Z) : pktbuf :=
  let size := w64 (psz + phd + ptr) in
  mkPkt id phd (w64 (phd + len)) size phd (repeat poison (Z.to_nat size)).

(** core.c 96-119 mctp_pktbuf_alloc.  [id] is the ghost identity given to the
    new object.  The allocation size sizeof( *buf) + size is assumed not to wrap
    (size is at most 2^32 + 16 in both bindings). *)
Definition pktbuf_alloc (id psz phd ptr len : Z) : prog (option pktbuf) :=
  if w64 (psz + phd + ptr) <? len then Ret None
  else Malloc (fun ok =>
    if ok then Emit (EvAlloc id) (Ret (Some (pktbuf_mk id psz phd ptr len)))
    else Ret None).

(** core.c 121-124 mctp_pktbuf_free *)
Definition pktbuf_free (p : pktbuf) : prog unit := Emit (EvFree (pk_id p)) (Ret tt).

(** core.c 136-139 mctp_pktbuf_size *)
Definition pktbuf_size (p : pktbuf) : Z := w64 (pk_end p - pk_start p).

(** core.c 126-129 mctp_pktbuf_hdr read as the four header bytes
    (ver, dest, src, flags_seq_tag), libmctp.h 23-28. *)
Definition pktbuf_hdr_bytes (p : pktbuf) : option (list Z) := rd (pk_data p) (pk_hdr p) 4.

(** The [size] bytes starting at the MCTP header, i.e. what mctp_pktbuf_hdr and
    mctp_pktbuf_size describe together (capture, serial tx, astlpc tx). *)
Definition pktbuf_bytes (p : pktbuf) : option (list Z) :=
  rd (pk_data p) (pk_hdr p) (pktbuf_size p).

(** core.c 141-146 mctp_pktbuf_alloc_start; result: new buffer and the offset of
    the returned pointer in the data array. *)
Definition pktbuf_alloc_start (p : pktbuf) (n : Z) : prog (pktbuf * Z) :=
  _ <- assert_ (n <=? pk_start p) ;;
  let s := w64 (pk_start p - n) in
  Ret (mkPkt (pk_id p) s (pk_end p) (pk_size p) (pk_hdr p) (pk_data p), s).

(** core.c 148-156 mctp_pktbuf_alloc_end *)
Definition pktbuf_alloc_end (p : pktbuf) (n : Z) : prog (pktbuf * Z) :=
  _ <- assert_ (n <=? w64 (pk_size p - pk_end p)) ;;
  Ret (mkPkt (pk_id p) (pk_start p) (w64 (pk_end p + n)) (pk_size p) (pk_hdr p) (pk_data p),
       pk_end p).

(** core.c 158-171 mctp_pktbuf_push.  [len] is passed separately from the source
    bytes because the check is done on [len] modulo 2^64; the source must hold
    [len] bytes, so a source shorter than [len] makes memcpy read out of
    bounds. *)
Definition pktbuf_push_len (p : pktbuf) (src : list Z) (len : Z) : prog (pktbuf * Z) :=
  if pk_size p <? w64 (pk_end p + len) then Ret (p, -1)
  else
    bs <- deref OutOfBounds (rd src 0 len) ;;
    d <- deref OutOfBounds (wr (pk_data p) (pk_end p) bs) ;;
    Ret (mkPkt (pk_id p) (pk_start p) (w64 (pk_end p + len)) (pk_size p) (pk_hdr p) d, 0).

Definition pktbuf_push (p : pktbuf) (bs : list Z) : prog (pktbuf * Z) :=
  pktbuf_push_len p bs (zlen bs).

(** core.c 173-180 mctp_pktbuf_pop; result: new buffer and the offset of the
    returned pointer, [None] for NULL. *)
Definition pktbuf_pop (p : pktbuf) (len : Z) : pktbuf * option Z :=
  if pktbuf_size p <? len then (p, None)
  else let e := w64 (pk_end p - len) in
       (mkPkt (pk_id p) (pk_start p) e (pk_size p) (pk_hdr p) (pk_data p), Some e).

(** A store of [bs] at offset [off] of the data array, through a pointer that
    one of the functions above returned. *)
Definition pktbuf_store (p : pktbuf) (off : Z) (bs : list Z) : prog pktbuf :=
  d <- deref OutOfBounds (wr (pk_data p) off bs) ;;
  Ret (mkPkt (pk_id p) (pk_start p) (pk_end p) (pk_size p) (pk_hdr p) d).
