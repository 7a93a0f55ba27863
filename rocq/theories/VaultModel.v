(** The key vault of SECURE_PKCS11 builds: objects in flash behind the wolfPKCS11 storage API.
    Source: src/pkcs11_store.c, little-endian build.  [cached_sector] is filled by every
    function before it is used, so it is a local value here. *)
From Verif Require Import Base HeaderModel Flash.

Record vcfg : Type := {
  VB : Z;       (* vault_base *)
  VSEC : Z;     (* WOLFBOOT_SECTOR_SIZE *)
  OSZ : Z;      (* KEYVAULT_OBJ_SIZE *)
  MAXI : Z      (* KEYVAULT_MAX_ITEMS *)
}.

(** src/pkcs11_store.c:82-97. *)
Definition HDRSZ : Z := 32.
Definition HDROFF : Z := 128.
Definition INVALID : Z := 0xFFFFFFFF.
(** src/pkcs11_store.c:106 [VAULT_HEADER_MAGIC]. *)
Definition VMAGIC : Z := 0x53434B50.
(** src/pkcs11_store.c:42-51. *)
Definition NOT_AVAILABLE_E : Z := -4.
Definition FIND_FULL_E : Z := -5.
Definition SESSION_COUNT_E : Z := -8.

(** An object's type, token id and object id, as 32-bit patterns. *)
Definition key : Type := (Z * Z * Z)%type.
(** The header at [h] is that of the object [k]. *)
Definition matches (f : flash) (h : Z) (k : key) : bool :=
  let '(ty, tok, obj) := k in (word f h =? tok) && (word f (h + 4) =? obj) && (word f (h + 8) =? ty).
Definition h_pos (f : flash) (h : Z) : Z := word f (h + 12).
Definition h_size (f : flash) (h : Z) : Z := word f (h + 16).

(** A 32-bit store into [cached_sector]. *)
Definition put32 (cache : flash) (off v : Z) : flash :=
  fun i => if inr off 4 i then nth (Z.to_nat (i - off)) (le_bytes 4 v) 0 else cache i.
(** [cached_sector] as a copy of the sector at [a]. *)
Definition cached (f : flash) (a : Z) : flash := fun i => f (a + i).

(** src/pkcs11_store.c:262,323: the offset of a position's buffer, as [uint32_t]. *)
Definition obj_off (c : vcfg) (pos : Z) : Z := (pos * OSZ c) mod 2 ^ 32.

(** src/pkcs11_store.c:128-139 [bitmap_put]; beyond [cached_sector] it is undefined. *)
Definition bitmap_put (c : vcfg) (cache : flash) (pos : Z) (val : bool) : option flash :=
  let a := 4 + pos / 8 in
  let bit := Z.shiftl 1 (pos mod 8) in
  if (0 <=? a) && (a <? VSEC c) then
    Some (fun i => if i =? a then (if val then Z.lor (cache i) bit else Z.ldiff (cache i) bit) else cache i)
  else None.
(** src/pkcs11_store.c:141-147 [bitmap_get]. *)
Definition bitmap_get (c : vcfg) (f : flash) (pos : Z) : bool := Z.testbit (f (VB c + 4 + pos / 8)) (pos mod 8).
(** src/pkcs11_store.c:149-157 [bitmap_find_free_pos]. *)
Fixpoint find_free (n : nat) (c : vcfg) (f : flash) (i : Z) : option Z :=
  match n with
  | O => None
  | S n' => if bitmap_get c f i then find_free n' c f (i + 1) else Some i
  end.

(** src/pkcs11_store.c:173-187 [cache_commit]: the backup sector first. *)
Definition commit (c : vcfg) (off : Z) (cache : flash) : prog unit :=
  Er (VB c + VSEC c) (VSEC c) (Wr (VB c + VSEC c) (VSEC c) cache
    (Er (VB c + off) (VSEC c) (Wr (VB c + off) (VSEC c) cache (Ret tt)))).
(** src/pkcs11_store.c:189-197 [restore_backup]. *)
Definition restore_backup (c : vcfg) (off : Z) : prog unit :=
  Er (VB c + off) (VSEC c) (Rd (fun f => Wr (VB c + off) (VSEC c) (cached f (VB c + VSEC c)) (Ret tt))).

(** src/pkcs11_store.c:99 [BITMAP_SIZE]. *)
Definition BITMAP_SIZE (c : vcfg) : Z := MAXI c / 8 + 1.
(** src/pkcs11_store.c:207-219: the empty node table. *)
Definition fresh (c : vcfg) : flash :=
  fun i => if inr 4 (BITMAP_SIZE c) i then 0 else put32 (fun _ => 255) 0 VMAGIC i.
(** src/pkcs11_store.c:199-225 [check_vault]. *)
Definition check_vault (c : vcfg) : prog unit :=
  let total := MAXI c * OSZ c in
  let total := if total mod VSEC c =? 0 then total else total / VSEC c * VSEC c + VSEC c in
  Rd (fun f =>
    if word f (VB c) =? VMAGIC then Ret tt
    else if word f (VB c + VSEC c) =? VMAGIC then restore_backup c 0
    else commit c 0 (fresh c) ;; Er (VB c + VSEC c * 2) total (Ret tt)).

(** src/pkcs11_store.c:233-243: the headers in [cached_sector], from its start on. *)
Fixpoint delete_loop (n : nat) (c : vcfg) (k : key) (cache : flash) (h : Z) : prog unit :=
  match n with
  | O => Ret tt
  | S n' =>
    if matches cache h k then
      match bitmap_put c (put32 (put32 cache h INVALID) (h + 4) INVALID) (h_pos cache h) false with
      | Some cache' => commit c 0 cache'
      | None => Stuck
      end
    else delete_loop n' c k cache (h + HDRSZ)
  end.
(** src/pkcs11_store.c:227-244 [delete_object].  The sector is a whole number of headers. *)
Definition delete_object (c : vcfg) (k : key) : prog unit :=
  check_vault c ;;
  Rd (fun f => delete_loop (Z.to_nat (VSEC c / HDRSZ)) c k (cached f (VB c)) 0).

(** src/pkcs11_store.c:286-299 [find_object_header]: from the first header on, over a whole
    sector's length, hence into the backup sector. *)
Fixpoint find_header (n : nat) (f : flash) (k : key) (h : Z) : option Z :=
  match n with
  | O => None
  | S n' => if matches f h k then Some h else find_header n' f k (h + HDRSZ)
  end.
Definition table_len (c : vcfg) : nat := Z.to_nat (VSEC c / HDRSZ).
Definition find_object_header (c : vcfg) (f : flash) (k : key) : option Z :=
  find_header (table_len c) f k (VB c + HDROFF).

(** The ids at the start of an object's buffer. *)
Definition ids_at (f : flash) (a : Z) (k : key) : bool :=
  let '(_, tok, obj) := k in (word f a =? tok) && (word f (a + 4) =? obj).
(** src/pkcs11_store.c:251-284 [find_object_buffer]; addresses are not bounded here, a
    position from a corrupt header reads wherever it points to. *)
Definition find_object_buffer (c : vcfg) (k : key) : prog (option Z) :=
  Rd (fun f =>
    match find_header (table_len c) f k (VB c + HDROFF) with
    | None => Ret None
    | Some h =>
      let pos := h_pos f h in
      let a := VB c + 2 * VSEC c + obj_off c pos in
      if ids_at f a k then Ret (Some a)
      else
        let in_sector := obj_off c pos mod VSEC c in
        if ids_at f (VB c + VSEC c + in_sector) k then
          restore_backup c (obj_off c pos + 2 * VSEC c - in_sector) ;;
          Rd (fun f => Ret (Some (VB c + 2 * VSEC c + obj_off c (h_pos f h))))
        else delete_object c k ;; Ret None
    end).

(** src/pkcs11_store.c:313-346: the search for a free header in [cached_sector]; [f] is the
    flash the sector was copied from. *)
Fixpoint create_loop (n : nat) (c : vcfg) (k : key) (f cache : flash) (h : Z) : prog (option Z) :=
  match n with
  | O => Ret None
  | S n' =>
    let '(ty, tok, obj) := k in
    if word cache h =? INVALID then
      match find_free (Z.to_nat (MAXI c)) c f 0 with
      | None => Ret None
      | Some pos =>
        let in_sector := obj_off c pos mod VSEC c in
        let base := obj_off c pos + 2 * VSEC c - in_sector in
        let cache := put32 (put32 (put32 (put32 (put32 cache (h + 12) pos) h tok) (h + 4) obj) (h + 8) ty) (h + 16) 8 in
        match bitmap_put c cache pos true with
        | None => Stuck
        | Some cache =>
          commit c 0 cache ;;
          Rd (fun f =>
            commit c base (put32 (put32 (cached f (VB c + base)) in_sector tok) (in_sector + 4) obj) ;;
            Ret (Some (VB c + h)))
        end
      end
    else create_loop n' c k f cache (h + HDRSZ)
  end.
(** src/pkcs11_store.c:301-349 [create_object]. *)
Definition create_object (c : vcfg) (k : key) : prog (option Z) :=
  let! b <- find_object_buffer c k in
  match b with
  | Some _ => Ret None
  | None => Rd (fun f => create_loop (Z.to_nat ((VSEC c - HDROFF) / HDRSZ)) c k f (cached f (VB c)) HDROFF)
  end.

(** src/pkcs11_store.c:351-364 [update_store_size]. *)
Definition update_store_size (c : vcfg) (h size : Z) : prog unit :=
  if (h <? VB c) || (VB c + VSEC c <? h) then Ret tt
  else
    check_vault c ;;
    Rd (fun f => commit c 0 (put32 (cached f (VB c)) (h - VB c + 16) size)).

(** ** The storage API *)

(** src/pkcs11_store.c:111-117 [struct store_handle], without the unused [pos]; no header is
    a null pointer. *)
Record handle : Type := mkH { h_open : bool; h_ro : bool; h_buf : option Z; h_hdr : option Z; h_off : Z }.
Definition MAX_OPEN : nat := 16.
Definition no_handles : list handle := repeat (mkH false false None None 0) MAX_OPEN.

(** src/pkcs11_store.c:372-380 [find_free_handle]. *)
Fixpoint free_handle (hs : list handle) : option nat :=
  match hs with
  | [] => None
  | h :: r => if h_open h then match free_handle r with Some i => Some (S i) | None => None end else Some O
  end.
Fixpoint set_nth {A} (l : list A) (i : nat) (v : A) : list A :=
  match l, i with
  | [], _ => []
  | _ :: r, O => v :: r
  | x :: r, S i' => x :: set_nth r i' v
  end.

(** Result of [wolfPKCS11_Store_Open]: the handle, or an error. *)
Inductive opened := Opened (i : nat) | Failed (e : Z).

(** src/pkcs11_store.c:382-445 [wolfPKCS11_Store_Open]. *)
Definition store_open (c : vcfg) (k : key) (ro : bool) (hs : list handle) : prog (opened * list handle) :=
  match free_handle hs with
  | None => Ret (Failed SESSION_COUNT_E, hs)
  | Some i =>
    let old := nth i hs (mkH false false None None 0) in
    let fail e hdr := Ret (Failed e, set_nth hs i (mkH (h_open old) (h_ro old) (h_buf old) hdr (h_off old))) in
    let done buf hdr :=
      (if ro then Ret tt else update_store_size c hdr 8) ;;
      Ret (Opened i, set_nth hs i (mkH true ro (Some buf) (Some hdr) 8)) in
    check_vault c ;;
    let! b <- find_object_buffer c k in
    match b with
    | None =>
      if ro then Ret (Failed NOT_AVAILABLE_E, hs)
      else
        let! h <- create_object c k in
        match h with
        | None => fail FIND_FULL_E None
        | Some h =>
          let! b <- find_object_buffer c k in
          match b with None => fail NOT_AVAILABLE_E (Some h) | Some buf => done buf h end
        end
    | Some buf =>
      Rd (fun f =>
        match find_object_header c f k with
        | None => fail NOT_AVAILABLE_E None
        | Some h => done buf h
        end)
    end
  end.

(** src/pkcs11_store.c:447-453 [wolfPKCS11_Store_Close]. *)
Definition store_close (i : nat) (hs : list handle) : list handle :=
  let h := nth i hs (mkH false false None None 0) in
  set_nth hs i (mkH false false (h_buf h) None (h_off h)).

(** src/pkcs11_store.c:455-480 [wolfPKCS11_Store_Read]: the result and the bytes stored to the
    caller's buffer. *)
Definition store_read (c : vcfg) (i : nat) (len : Z) (hs : list handle) : prog (Z * list Z * list handle) :=
  let h := nth i hs (mkH false false None None 0) in
  match h_hdr h, h_buf h with
  | Some hdr, Some buf =>
    Rd (fun f =>
      let size := h_size f hdr in
      if OSZ c <? size then Ret (-1, [], hs)
      else if size <=? h_off h then Ret (0, [], hs)
      else
        let len := if size <? (h_off h + len) mod 2 ^ 32 then size - h_off h else len in
        if 0 <? len then
          Ret (len, rdl f (buf + h_off h) (Z.to_nat len), set_nth hs i (mkH (h_open h) (h_ro h) (h_buf h) (h_hdr h) (h_off h + len)))
        else Ret (len, [], hs))
  | _, _ => Ret (-1, [], hs)
  end.

(** src/pkcs11_store.c:504-522: the loop over the sectors; [off] is [in_buffer_offset].  Bytes
    beyond the caller's [data] are undefined. *)
Fixpoint write_loop (fuel : nat) (c : vcfg) (buf : Z) (data : list Z) (len written off : Z) : prog (Z * Z) :=
  if written <? len then
    match fuel with
    | O => Stuck
    | S fuel' =>
      let in_sector := (buf + off) mod VSEC c in
      let base := buf + off - in_sector in
      let n := VSEC c - in_sector in
      let n := if len <? n then len else n in
      if zlen data <? written + n then Stuck
      else
        Rd (fun f =>
          commit c (base - VB c) (fun i => if inr in_sector n i then nth (Z.to_nat (written + (i - in_sector))) data 0 else f (base + i)) ;;
          write_loop fuel' c buf data len (written + n) (off + n))
    end
  else Ret (written, off).

(** src/pkcs11_store.c:482-531 [wolfPKCS11_Store_Write] of the [len] bytes [data]. *)
Definition store_write (c : vcfg) (i : nat) (data : list Z) (hs : list handle) : prog (Z * list handle) :=
  let h := nth i hs (mkH false false None None 0) in
  match h_hdr h, h_buf h with
  | Some hdr, Some buf =>
    if h_ro h then Ret (-1, hs)
    else
      Rd (fun f =>
        let size := h_size f hdr in
        if OSZ c <? size then Ret (-1, hs)
        else
          let len := if OSZ c <? zlen data + h_off h then OSZ c - h_off h else zlen data in
          if len <? 0 then Ret (-1, hs)
          else
            let! (written, off) <- write_loop (S (Z.to_nat len)) c buf data len 0 (h_off h) in
            update_store_size c hdr ((size + written) mod 2 ^ 32) ;;
            Ret (len, set_nth hs i (mkH (h_open h) (h_ro h) (h_buf h) (h_hdr h) off)))
  | _, _ => Ret (-1, hs)
  end.

(** ** A client's calls *)

Inductive vop :=
| OpOpen (k : key) (ro : bool)
| OpClose (i : nat)
| OpRead (i : nat) (len : Z)
| OpWrite (i : nat) (data : list Z).
Inductive vres := ROpen (o : opened) | RClosed | RRead (n : Z) (data : list Z) | RWrote (n : Z).

Definition call (c : vcfg) (o : vop) (hs : list handle) : prog (vres * list handle) :=
  match o with
  | OpOpen k ro => let! (r, hs) <- store_open c k ro hs in Ret (ROpen r, hs)
  | OpClose i => Ret (RClosed, store_close i hs)
  | OpRead i len => let! (n, data, hs) <- store_read c i len hs in Ret (RRead n data, hs)
  | OpWrite i data => let! (n, hs) <- store_write c i data hs in Ret (RWrote n, hs)
  end.
Fixpoint calls (c : vcfg) (os : list vop) (hs : list handle) : prog (list vres * list handle) :=
  match os with
  | [] => Ret ([], hs)
  | o :: os' =>
    let! (r, hs) <- call c o hs in
    let! (rs, hs) <- calls c os' hs in
    Ret (r :: rs, hs)
  end.

(** Successive boots: the handles are in RAM. *)
Fixpoint boots (c : vcfg) (oss : list (list vop)) : prog (list (list vres)) :=
  match oss with
  | [] => Ret []
  | os :: oss' =>
    let! (rs, _) <- calls c os no_handles in
    let! rss <- boots c oss' in
    Ret (rs :: rss)
  end.
