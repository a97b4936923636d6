(** Model of xdvdfs-core/src/write/sector.rs. *)
From Verif Require Import M_Base.

(** sector.rs:7-12 [SectorAllocator::default]. The state is [next_free]. *)
Definition allocator_default : N := 33.

(** sector.rs:14-28 [required_sectors]: the quotient must fit u32 ([expect]); the
    final addition is u32 arithmetic. *)
Definition required_sectors {E} (m : build) (n : N) : res E N :=
  if (n =? 0)%N then Ok 1%N
  else if (n / SECTOR_SIZE <? u32_modulus)%N
       then u32_add m (n / SECTOR_SIZE)%N (if (0 <? n mod SECTOR_SIZE)%N then 1 else 0)%N
       else Panic PUnwrap.

(** sector.rs:33-38 [allocate_contiguous]: returns the new state and the first
    sector of the allocation. *)
Definition allocate_contiguous {E} (m : build) (next_free bytes : N) : res E (N * N) :=
  let* sectors := required_sectors m bytes in
  let* nf := u32_add m next_free sectors in
  Ok (nf, next_free).
