(** Model of the page tables wolfBoot builds on 64-bit x86: src/x86/paging.c.
    Memory is a function from addresses to 64-bit words; pointers are addresses. *)
From Verif Require Import Base PagingSpec.

(** [uint32_t] and [uint64_t] arithmetic. *)
Definition u32 (x : Z) : Z := x mod 2 ^ 32.
Definition u64 (x : Z) : Z := x mod 2 ^ 64.

(** PAGE_MASK, paging.c:33, as converted to [uint64_t] *)
Definition PAGE_MASK : Z := 2 ^ 64 - 4096.

(** a store of one word *)
Definition upd (m : memory) (a v : Z) : memory := fun x => if x =? a then v else m x.

(** x86_paging_pte_set_pfn, set_present, set_rw, set_ps, paging.c:56-74 *)
Definition set_pfn (m : memory) (e pfn : Z) : memory := upd m e (Z.lor (m e) (Z.land pfn PAGE_MASK)).
Definition set_present (m : memory) (e : Z) : memory := upd m e (Z.lor (m e) 1).
Definition set_rw (m : memory) (e : Z) : memory := upd m e (Z.lor (m e) 2).
Definition set_ps (m : memory) (e : Z) : memory := upd m e (Z.lor (m e) 128).

(** x86_paging_pte_get_pfn, paging.c:76-79 *)
Definition get_pfn (m : memory) (e : Z) : Z := Z.land (m e) PAGE_MASK.

(** x86_paging_get_needed_entries, paging.c:81-84 *)
Definition needed_entries (size level : Z) : Z := Z.land (Z.shiftr size (9 * level + 3)) 4095 + 1.

(** x86_paging_setup_entry, paging.c:86-91 *)
Definition setup_entry (m : memory) (e addr : Z) : memory :=
  set_rw (set_present (set_pfn m e addr) e) e.

(** the two loops of paging.c:122-131: [n] entries at [e0], for the tables at [p0] *)
Fixpoint link_loop (n : nat) (m : memory) (i e0 p0 : Z) : memory :=
  match n with
  | O => m
  | S n' => link_loop n' (setup_entry m (e0 + 8 * i) (p0 + i * 4096)) (i + 1) e0 p0
  end.

(** the loop of paging.c:132-136; [i << 21] is computed in [unsigned int] *)
Fixpoint leaf_loop (n : nat) (m : memory) (i e0 : Z) : memory :=
  match n with
  | O => m
  | S n' =>
    let e := e0 + 8 * i in
    leaf_loop n' (set_ps (setup_entry m e (u32 (Z.shiftl i 21))) e) (i + 1) e0
  end.

(** x86_paging_build_identity_mapping, paging.c:98-139; [num]: PAGE_TABLE_PAGE_NUM *)
Definition x86_paging_build_identity_mapping (num : Z) (m : memory) (top_address page_table : Z)
    : memory * Z :=
  let entries_l4 := needed_entries top_address 4 in
  let entries_l3 := needed_entries top_address 3 in
  let entries_l2 := needed_entries top_address 2 in
  let pages_l3 := entries_l4 in
  let pages_l2 := entries_l3 in
  if pages_l2 + pages_l3 + 1 >? num then (m, -1) else
  let ptpl4 := page_table in
  let ptpl3 := ptpl4 + 4096 in
  let ptpl2 := ptpl3 + pages_l3 * 4096 in
  let m := link_loop (Z.to_nat entries_l4) m 0 ptpl4 ptpl3 in
  let m := link_loop (Z.to_nat entries_l3) m 0 ptpl3 ptpl2 in
  (leaf_loop (Z.to_nat entries_l2) m 0 ptpl2, 0).

(** WOLFBOOT_PTP_NUM, paging.c:45 *)
Definition WOLFBOOT_PTP_NUM : Z := 512.

(** The state the second stage works on: memory and [page_table_page_used], paging.c:48. *)
Record st := { mem : memory; used : Z }.

(** x86_paging_get_entry_ptr, paging.c:149-155 *)
Definition get_entry_ptr (address ptp level : Z) : Z :=
  ptp + 8 * Z.land (Z.shiftr address (12 + (level - 1) * 9)) 511.

(** memset of one page to zero *)
Definition clear_page (m : memory) (p : Z) : memory :=
  fun x => if (p <=? x) && (x <? p + 4096) then 0 else m x.

(** x86_paging_setup_ptp, paging.c:157-170; [pool]: page_table_pages.  [None]: panic. *)
Definition setup_ptp (pool : Z) (s : st) (e : Z) : option st :=
  let ptp := pool + used s * 4096 in
  let n := used s + 1 in
  if n =? WOLFBOOT_PTP_NUM then None else
  Some {| mem := clear_page (setup_entry (mem s) e ptp) ptp; used := n |}.

(** [if ( *e == 0) x86_paging_setup_ptp(e);] *)
Definition ensure (pool : Z) (s : st) (e : Z) : option st :=
  if mem s e =? 0 then setup_ptp pool s e else Some s.

(** x86_paging_map_page, paging.c:172-199; [cr3]: what the register holds *)
Definition map_page (pool cr3 : Z) (s : st) (vaddress paddress : Z) : option st :=
  let pl4e := get_entry_ptr vaddress cr3 4 in
  match ensure pool s pl4e with
  | None => None
  | Some s =>
    let pl3e := get_entry_ptr vaddress (get_pfn (mem s) pl4e) 3 in
    match ensure pool s pl3e with
    | None => None
    | Some s =>
      let pl2e := get_entry_ptr vaddress (get_pfn (mem s) pl3e) 2 in
      match ensure pool s pl2e with
      | None => None
      | Some s =>
        if negb (Z.land (mem s pl2e) 128 =? 0) then Some s else
        let pl1e := get_entry_ptr vaddress (get_pfn (mem s) pl2e) 1 in
        if negb (mem s pl1e =? 0) then Some s else
        Some {| mem := setup_entry (mem s) pl1e paddress; used := used s |}
      end
    end
  end.

(** the loop of paging.c:213-215.  Outer [NoFuel]: more than [fuel] pages. *)
Fixpoint map_loop (fuel : nat) (pool cr3 : Z) (s : st) (page end_ pa : Z) : out (option st) :=
  if page <? end_ then
    match fuel with
    | O => NoFuel
    | S f =>
      match map_page pool cr3 s page pa with
      | None => Val None
      | Some s => map_loop f pool cr3 s (u64 (page + 4096)) end_ (u64 (pa + 4096))
      end
    end
  else Val (Some s).

(** x86_paging_map_memory, paging.c:201-218: [None]: panic; otherwise the return value *)
Definition x86_paging_map_memory (fuel : nat) (pool cr3 : Z) (s : st) (va pa size : Z)
    : out (option (st * Z)) :=
  if Z.land pa PAGE_MASK =? 0 then Val (Some (s, -1)) else
  let end_ := u64 (va + size) in
  let start := Z.land va PAGE_MASK in
  let pa := Z.land pa PAGE_MASK in
  match map_loop fuel pool cr3 s start end_ pa with
  | Val (Some s) => Val (Some (s, 0))
  | Val None => Val None
  | UB => UB
  | NoFuel => NoFuel
  end.
