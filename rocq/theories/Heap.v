(** The heap of the crypto library: lib/allocator/src/memory_alloc.c.  All addresses and sizes
    are in bytes; memory is made of 64-bit words at multiples of 8. *)
From Coq Require Import NArith List Bool.
Import ListNotations.
Local Open Scope N_scope.

Definition wrap (x : N) : N := x mod 2 ^ 64.

(** Memory: the word at each multiple of 8 *)
Definition words := N -> N.
Definition put (m : words) (a v : N) : words := fun b => if b =? a then v else m b.

(** memory_alloc.h:22-31: struct memory_header_s, 64 bytes; its members by number *)
Definition HDR : N := 64.
Definition MAGIC1f : N := 0.
Definition SIZEf : N := 1.
Definition ALLOCf : N := 2.
Definition PREVf : N := 3.
Definition NEXTf : N := 4.
Definition PFREEf : N := 5.
Definition NFREEf : N := 6.
Definition MAGIC2f : N := 7.
Definition ld (m : words) (a f : N) : N := m (a + 8 * f).
Definition st (m : words) (a f v : N) : words := put m (a + 8 * f) v.
(** [if (p != NULL) { p->f = v; }] *)
Definition st_if (m : words) (a f v : N) : words := if a =? 0 then m else st m a f v.

(** memory_alloc.c:30-31 and configs/mbedtls/rmm_mbedtls_config.h:86 *)
Definition MAGIC1 : N := 0xFF00AA55.
Definition MAGIC2 : N := 0xEE119966.
Definition ALIGN : N := 8.
(** mbedtls/memory_buffer_alloc.h of the library *)
Definition VERIFY_ALLOC : N := 1.
Definition VERIFY_FREE : N := 2.

(** memset to 0 of [len] bytes at a multiple of 8: the word at the end keeps the bytes beyond *)
Definition zero (m : words) (p len : N) : words := fun a =>
  if (p <=? a) && (a <? p + len) then
    if a + 8 <=? p + len then 0 else m a / 2 ^ (8 * (p + len - a)) * 2 ^ (8 * (p + len - a))
  else m a.

(** memory_alloc.h:14-20: struct buffer_alloc_ctx *)
Record hctx := mkCtx { hc_buf : N; hc_len : N; hc_first : N; hc_free : N; hc_verify : N }.
Definition no_heap : hctx := mkCtx 0 0 0 0 0.
Definition set_free (h : hctx) (v : N) : hctx := mkCtx (hc_buf h) (hc_len h) (hc_first h) v (hc_verify h).
Definition set_verify (h : hctx) (v : N) : hctx := mkCtx (hc_buf h) (hc_len h) (hc_first h) (hc_free h) v.

(** memory_alloc.c:82-105: true stands for 0, a good header *)
Definition verify_header (m : words) (a : N) : bool :=
  (ld m a MAGIC1f =? MAGIC1) && (ld m a MAGIC2f =? MAGIC2) && (ld m a ALLOCf <=? 1) &&
  negb (negb (ld m a PREVf =? 0) && (ld m a PREVf =? ld m a NEXTf)) &&
  negb (negb (ld m a PFREEf =? 0) && (ld m a PFREEf =? ld m a NFREEf)).

(** The loops follow pointers; [fuel] bounds the number of iterations.  A heap of [len] bytes
    has at most len / 64 headers; [None] means that the loop does not end. *)
Definition fuel (h : hctx) : nat := S (N.to_nat (hc_len h / HDR)).

(** memory_alloc.c:122-133 *)
Fixpoint verify_from (n : nat) (m : words) (prv cur : N) : option bool :=
  if cur =? 0 then Some true else
  match n with
  | O => None
  | S n => if negb (verify_header m cur) then Some false
           else if negb (ld m cur PREVf =? prv) then Some false
           else verify_from n m cur (ld m cur NEXTf)
  end.
(** memory_alloc.c:107-136: true stands for 0 *)
Definition verify_chain (m : words) (h : hctx) : option bool :=
  if (hc_first h =? 0) || negb (verify_header m (hc_first h)) then Some false
  else if negb (ld m (hc_first h) PREVf =? 0) then Some false
  else verify_from (fuel h) m (hc_first h) (ld m (hc_first h) NEXTf).

(** memory_alloc.c:167-173: [Some 0] if there is none *)
Fixpoint find_fit (n : nat) (m : words) (len cur : N) : option N :=
  if cur =? 0 then Some 0 else
  match n with
  | O => None
  | S n => if len <=? ld m cur SIZEf then Some cur else find_fit n m len (ld m cur NFREEf)
  end.

(** assert(verify_chain(heap) == 0) if the bit is set (memory_alloc.c:203-205, 247-249) *)
Definition checked (m : words) (h : hctx) : bool :=
  if N.land (hc_verify h) VERIFY_ALLOC =? 0 then true
  else match verify_chain m h with Some true => true | _ => false end.

(** memory_alloc.c:138-255.  [None]: an assertion fails (or a loop does not end). *)
Definition calloc_with_heap (m : words) (h : hctx) (n size : N) : option (words * hctx * N) :=
  if (hc_buf h =? 0) || (hc_first h =? 0) then Some (m, h, 0) else
  let original_len := wrap (n * size) in
  if (n =? 0) || (size =? 0) || negb (original_len / n =? size) then Some (m, h, 0)
  else if 2 ^ 64 - ALIGN <? original_len then Some (m, h, 0) else
  let len := if original_len mod ALIGN =? 0 then original_len else original_len - original_len mod ALIGN + ALIGN in
  match find_fit (fuel h) m len (hc_free h) with
  | None => None
  | Some cur =>
    if cur =? 0 then Some (m, h, 0)
    else if negb (ld m cur ALLOCf =? 0) then None
    else if ld m cur SIZEf - len <? HDR + ALIGN then
      (* lines 184-211 *)
      let m := st m cur ALLOCf 1 in
      let pf := ld m cur PFREEf in let nf := ld m cur NFREEf in
      let h := if pf =? 0 then set_free h nf else h in
      let m := st_if m pf NFREEf nf in
      let m := st_if m nf PFREEf (ld m cur PFREEf) in
      let m := st (st m cur PFREEf 0) cur NFREEf 0 in
      if checked m h then Some (zero m (wrap (cur + HDR)) original_len, h, wrap (cur + HDR)) else None
    else
      (* lines 213-254 *)
      let new := wrap (cur + HDR + len) in
      let m := st m new SIZEf (ld m cur SIZEf - len - HDR) in
      let m := st m new ALLOCf 0 in
      let m := st m new PREVf cur in
      let m := st m new NEXTf (ld m cur NEXTf) in
      let m := st (st m new MAGIC1f MAGIC1) new MAGIC2f MAGIC2 in
      let m := st_if m (ld m new NEXTf) PREVf new in
      let m := st m new PFREEf (ld m cur PFREEf) in
      let m := st m new NFREEf (ld m cur NFREEf) in
      let h := if ld m new PFREEf =? 0 then set_free h new else h in
      let m := st_if m (ld m new PFREEf) NFREEf new in
      let m := st_if m (ld m new NFREEf) PFREEf new in
      let m := st (st (st m cur ALLOCf 1) cur SIZEf len) cur NEXTf new in
      let m := st (st m cur PFREEf 0) cur NFREEf 0 in
      if checked m h then Some (zero m (wrap (cur + HDR)) original_len, h, wrap (cur + HDR)) else None
  end.

(** memory_alloc.c:291-303: join with the block before.  The result is the header that remains, and
    whether they were joined. *)
Definition join_prev (m : words) (hdr : N) : words * N * bool :=
  let prev := ld m hdr PREVf in
  if negb (prev =? 0) && (ld m prev ALLOCf =? 0) then
    let m := st m prev SIZEf (wrap (ld m prev SIZEf + (HDR + ld m hdr SIZEf))) in
    let m := st m prev NEXTf (ld m hdr NEXTf) in
    let m := st_if m (ld m prev NEXTf) PREVf prev in
    (zero m hdr HDR, prev, true)
  else (m, hdr, false).

(** memory_alloc.c:305-340: join with the block after *)
Definition join_next (m : words) (h : hctx) (hdr : N) : words * hctx * bool :=
  let old := ld m hdr NEXTf in
  if negb (old =? 0) && (ld m old ALLOCf =? 0) then
    let m := st m hdr SIZEf (wrap (ld m hdr SIZEf + (HDR + ld m old SIZEf))) in
    let m := st m hdr NEXTf (ld m old NEXTf) in
    let '(m, h) :=
      (if negb (ld m hdr PFREEf =? 0) || negb (ld m hdr NFREEf =? 0) then
         let h := if ld m hdr PFREEf =? 0 then set_free h (ld m hdr NFREEf) else h in
         let m := st_if m (ld m hdr PFREEf) NFREEf (ld m hdr NFREEf) in
         let m := st_if m (ld m hdr NFREEf) PFREEf (ld m hdr PFREEf) in
         (m, h)
       else (m, h)) in
    let m := st m hdr PFREEf (ld m old PFREEf) in
    let m := st m hdr NFREEf (ld m old NFREEf) in
    let h := if ld m hdr PFREEf =? 0 then set_free h hdr else h in
    let m := st_if m (ld m hdr PFREEf) NFREEf hdr in
    let m := st_if m (ld m hdr NFREEf) PFREEf hdr in
    let m := st_if m (ld m hdr NEXTf) PREVf hdr in
    (zero m old HDR, h, true)
  else (m, h, false).

(** memory_alloc.c:265-358.  The assertion of line 356 holds if the chain is NOT good. *)
Definition free_with_heap (m : words) (h : hctx) (ptr : N) : option (words * hctx) :=
  if (ptr =? 0) || (hc_buf h =? 0) || (hc_first h =? 0) then Some (m, h)
  else if (ptr <? hc_buf h) || (wrap (hc_buf h + hc_len h) <=? ptr) then None else
  let hdr := wrap (ptr + (2 ^ 64 - HDR)) in
  if negb (verify_header m hdr) then None
  else if negb (ld m hdr ALLOCf =? 1) then None else
  let m := st m hdr ALLOCf 0 in
  let '(m, hdr, j1) := join_prev m hdr in
  let '(m, h, j2) := join_next m h hdr in
  let '(m, h) :=
    (if j1 || j2 then (m, h)
     else (st_if (st m hdr NFREEf (hc_free h)) (hc_free h) PFREEf hdr, set_free h hdr)) in
  if N.land (hc_verify h) VERIFY_FREE =? 0 then Some (m, h)
  else match verify_chain m h with Some false => Some (m, h) | _ => None end.

(** memory_alloc.c:417-453 *)
Definition heap_init (m : words) (buf len : N) : words * hctx :=
  if len <? HDR + ALIGN then (m, no_heap)
  else
    let off := if buf mod ALIGN =? 0 then 0 else ALIGN - buf mod ALIGN in
    let len := len - off in let buf := wrap (buf + off) in
    let m := zero m buf len in
    let m := st m buf SIZEf (len - HDR) in
    let m := st (st m buf MAGIC1f MAGIC1) buf MAGIC2f MAGIC2 in
    (m, mkCtx buf len buf buf 0).

(** ** The calls of a CPU on the heap assigned to it *)

(** memory_alloc.c:62-63: the memory, the contexts (by number) and which is assigned to each CPU *)
Record hstate := mkHs { hs_mem : words; hs_ctx : N -> hctx; hs_cpu : N -> option N }.
Inductive hop :=
| HAssign (p ctx : N) | HUnassign (p : N)
| HInit (p buf len : N) | HDrop (p : N)
| HCalloc (p n size : N) | HFree (p ptr : N)
| HSetVerify (p v : N) | HVerify (p : N)
(* the owner of an allocation writes one byte *)
| HWrite (a v : N).
Inductive hreply := HNone | HPtr (a : N) | HGood (ok : bool).

Definition set_ctx (f : N -> hctx) (i : N) (h : hctx) : N -> hctx := fun j => if j =? i then h else f j.
Definition set_cpu (f : N -> option N) (p : N) (v : option N) : N -> option N := fun q => if q =? p then v else f q.
(** Byte [a] is byte (a mod 8) of its word *)
Definition put_byte (m : words) (a v : N) : words :=
  let w := a / 8 * 8 in let k := 8 * (a mod 8) in
  put m w (m w / 2 ^ (k + 8) * 2 ^ (k + 8) + v mod 256 * 2 ^ k + m w mod 2 ^ k).

(** [None]: panic, a failed assertion.  get_heap_ctx (memory_alloc.c:65-80) panics if no heap is assigned;
    buffer_alloc_calloc 257-263, buffer_alloc_free 360-366, buffer_alloc_ctx_assign 368-386 (an error
    is [HGood false]), buffer_alloc_ctx_unassign 388-398, mbedtls_memory_buffer_set_verify 401-407,
    mbedtls_memory_buffer_alloc_verify 409-415, mbedtls_memory_buffer_alloc_init 417-453,
    mbedtls_memory_buffer_alloc_free 455-461.  The check of the CPU number is left out. *)
Definition hstep (s : hstate) (o : hop) : option (hstate * hreply) :=
  let on p k := match hs_cpu s p with None => None | Some i => k i (hs_ctx s i) end in
  match o with
  | HAssign p i => match hs_cpu s p with
                   | Some _ => Some (s, HGood false)
                   | None => Some (mkHs (hs_mem s) (hs_ctx s) (set_cpu (hs_cpu s) p (Some i)), HGood true)
                   end
  | HUnassign p => match hs_cpu s p with None => None | Some _ => Some (mkHs (hs_mem s) (hs_ctx s) (set_cpu (hs_cpu s) p None), HNone) end
  | HInit p buf len => on p (fun i _ => let '(m, h) := heap_init (hs_mem s) buf len in Some (mkHs m (set_ctx (hs_ctx s) i h) (hs_cpu s), HNone))
  | HDrop p => on p (fun i _ => Some (mkHs (hs_mem s) (set_ctx (hs_ctx s) i no_heap) (hs_cpu s), HNone))
  | HCalloc p n size => on p (fun i h => match calloc_with_heap (hs_mem s) h n size with
      | Some (m, h, a) => Some (mkHs m (set_ctx (hs_ctx s) i h) (hs_cpu s), HPtr a)
      | None => None
      end)
  | HFree p ptr => on p (fun i h => match free_with_heap (hs_mem s) h ptr with
      | Some (m, h) => Some (mkHs m (set_ctx (hs_ctx s) i h) (hs_cpu s), HNone)
      | None => None
      end)
  | HSetVerify p v => on p (fun i h => Some (mkHs (hs_mem s) (set_ctx (hs_ctx s) i (set_verify h (v mod 2 ^ 32))) (hs_cpu s), HNone))
  | HVerify p => on p (fun i h => match verify_chain (hs_mem s) h with Some b => Some (s, HGood b) | None => None end)
  | HWrite a v => Some (mkHs (put_byte (hs_mem s) a v) (hs_ctx s) (hs_cpu s), HNone)
  end.
