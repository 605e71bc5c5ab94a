(** Packet capture, /repo/utils/mctp-capture.c (with HAVE_PCAP). *)
From Verif Require Import Base Prog PktBuf.

(** Result: [None] an access outside an object, [Some None] nothing recorded,
    [Some (Some bs)] pcap_dump called with caplen = len = length of [bs]. *)
Definition record := option (option (list Z)).

Definition obind {A B} (o : option A) (f : A -> option B) : option B :=
  match o with Some a => f a | None => None end.

(** sizeof(struct sll2_header), <pcap/sll.h>: protocol (2 bytes, offset 0),
    reserved (2), interface index (4), hatype (2), pkttype (1, offset 10),
    halen (1, offset 11), addr (8, offset 12). *)
Definition SLL2_LEN : Z := 20.
Definition ETH_P_MCTP : Z := 250.
Definition LINUX_SLL_HOST : Z := 0.
Definition LINUX_SLL_OUTGOING : Z := 4.

(** mctp-capture.c:69-81 and 109-120: the header stores, in program order. *)
Definition put_sll2 (m : list Z) (outgoing : bool) : option (list Z) :=
  obind (wr m 0 (be16 ETH_P_MCTP)) (fun m =>
  obind (wr m 10 [if outgoing then LINUX_SLL_OUTGOING else LINUX_SLL_HOST]) (fun m =>
  obind (wr m 2 [0; 0]) (fun m =>
  obind (wr m 4 [0; 0; 0; 0]) (fun m =>
  obind (wr m 8 [0; 0]) (fun m =>
  obind (wr m 11 [0]) (fun m =>
  wr m 12 (repeat 0 8))))))).

(** capture_binding, mctp-capture.c:54-91. [clock]: gettimeofday succeeded;
    [alloc]: __mctp_alloc succeeded. *)
Definition capture_binding (clock alloc : bool) (p : pktbuf) (outgoing : bool) : record :=
  if negb clock then Some None
  else
    let size := w64 (SLL2_LEN + pktbuf_size p) in
    if negb alloc then Some None
    else
      obind (put_sll2 (repeat poison (Z.to_nat size)) outgoing) (fun m =>
      obind (pktbuf_bytes p) (fun bs =>
      obind (wr m SLL2_LEN bs) (fun m => Some (Some m)))).

(** capture_socket, mctp-capture.c:93-144. [buf] is the datagram, EID first. *)
Definition capture_socket (clock alloc : bool) (buf : list Z) (outgoing : bool) (eid : Z) : record :=
  let len := zlen buf in
  if negb clock then Some None
  else
    let size := w64 (SLL2_LEN + 4 + len) in
    if negb alloc then Some None
    else
      obind (put_sll2 (repeat poison (Z.to_nat size)) outgoing) (fun m =>
      (* 122-134: ver, flags, dest, src *)
      obind (wr m (SLL2_LEN + 0) [1]) (fun m =>
      obind (wr m (SLL2_LEN + 3) [192]) (fun m =>
      obind (wr m (SLL2_LEN + 1) [if outgoing then w8 eid else 0]) (fun m =>
      obind (wr m (SLL2_LEN + 2) [if outgoing then 0 else w8 eid]) (fun m =>
      (* 136-138: memcpy(.., buf + 1, len - 1) *)
      obind (rd buf 1 (w64 (len - 1))) (fun bs =>
      obind (wr m (SLL2_LEN + 4) bs) (fun m => Some (Some m)))))))).
