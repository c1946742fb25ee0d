(** ModelAlloc.v -- allocation and release of key contexts:
    dvbcsa_algo.c:73-81 and dvbcsa_bs_algo.c:118-148 of /repo/src.

    The allocators themselves (malloc, posix_memalign, _mm_malloc) are outside the library: they
    are an arbitrary answer to each request.  What is modelled is which of them is called, with
    which arguments, what is done with the answer, and which deallocator is called. *)
From Verif Require Import Base Mem ModelBsWord ModelBsAlgo ApiSpec BsApiSpec.
Local Open Scope N_scope.

(* requests: malloc(size), posix_memalign(&p, align, size), _mm_malloc(size, align) *)
Inductive request := Malloc (size : N) | Memalign (align size : N) | MmMalloc (size align : N).
(* who must release the block: free or _mm_free *)
Inductive family := Free | MmFree.
Definition req_family (r : request) : family := match r with MmMalloc _ _ => MmFree | _ => Free end.
Definition req_size (r : request) : N := match r with Malloc n | Memalign _ n | MmMalloc n _ => n end.

(* configure.ac:142-150: HAVE_POSIX_MEMALIGN, HAVE_MM_MALLOC *)
Record platform := mk_platform { have_mm_malloc : bool; have_posix_memalign : bool }.

(* memory and the live heap blocks *)
Record state := mk_state { smem : mem; blocks : N -> option (family * N) }.

(* the answer of an allocator: failure, or an address and the initial (indeterminate) contents *)
Definition answer := option (N * list N).
Definition libc := request -> answer.

(* a block appears; returns the pointer (0 is NULL) *)
Definition allocate (s : state) (r : request) (o : answer) : state * N :=
  match o with
  | None => (s, 0)
  | Some (a, content) =>
      (mk_state (put (smem s) a content)
                (fun x => if x =? a then Some (req_family r, req_size r) else blocks s x), a)
  end.

(* free(p) or _mm_free(p): nothing for NULL, undefined unless p is a live block of that family *)
Definition release (f : family) (s : state) (p : N) : res state :=
  if p =? 0 then Ok s
  else match blocks s p, f with
  | Some (Free, n), Free | Some (MmFree, n), MmFree =>
      Ok (mk_state (fun x => if (p <=? x) && (x <? p + n) then None else smem s x)
                   (fun x => if x =? p then None else blocks s x))
  | _, _ => UB InvalidFree
  end.

(* dvbcsa_algo.c:73-76 *)
Definition dvbcsa_key_alloc (l : libc) (s : state) : res (state * N) :=
  let r := Malloc ctx_size in Ok (allocate s r (l r)).
(* dvbcsa_algo.c:78-81 *)
Definition dvbcsa_key_free (s : state) (p : N) : res state := release Free s p.

(* dvbcsa_bs_algo.c:118-139; the size of a pointer is ptr_bytes.  A failing posix_memalign gives NULL. *)
Definition dvbcsa_bs_key_alloc (c : build) (pl : platform) (l : libc) (s : state) : res (state * N) :=
  if have_mm_malloc pl then
    let r := MmMalloc (bs_ctx_size c) (word_size c) in Ok (allocate s r (l r))
  else if have_posix_memalign pl then
    let psize := N.of_nat (ptr_bytes c) in
    let r := Memalign (if psize <? word_size c then word_size c else psize) (bs_ctx_size c) in
    Ok (allocate s r (l r))
  else
    let r := Malloc (bs_ctx_size c) in
    let '(s', p) := allocate s r (l r) in
    if have_assert c && negb (p mod word_size c =? 0) then Abort else Ok (s', p).

(* dvbcsa_bs_algo.c:141-148 *)
Definition dvbcsa_bs_key_free (pl : platform) (s : state) (p : N) : res state :=
  release (if have_mm_malloc pl then MmFree else Free) s p.
