(** The security feature set of an ATA drive (ATA8-ACS, 4.7 and 7.44-7.49). *)
From Verif Require Import Base.

(** [capable]: the drive has the feature set.  [user]: the user password, if one is set
    (security is enabled).  [high]: the security level (high: the master password unlocks as
    well).  [tries]: attempts left until the next power cycle.  [other]: the identify data, for
    the words that say nothing about security.  Passwords have 32 bytes. *)
Record drive := { capable : bool; user : option (list Z); master : list Z; high : bool;
                  locked : bool; frozen : bool; tries : nat; other : list Z }.

Definition enabled (d : drive) : bool := match user d with Some _ => true | None => false end.

(** The 512 bytes that come with a command: identifier (bit 0 of word 0: master), level (bit 8
    of word 0: maximum), password (words 1 to 16). *)
Definition for_master (b : list Z) : bool := Z.testbit (nth 0 b 0) 0.
Definition for_maximum (b : list Z) : bool := Z.testbit (nth 1 b 0) 0.
Definition password (b : list Z) : list Z := sub b 2 32.

(** [Access]: reading or writing sectors. *)
Inductive command := Identify | Access | SetPassword (b : list Z) | Unlock (b : list Z) | Freeze
                   | Disable (b : list Z) | Erase (b : list Z).

Definition eq_bytes (a b : list Z) : bool := if list_eq_dec Z.eq_dec a b then true else false.

(** The password fits.  The master password does not count at level maximum, except for
    erasing. *)
Definition fits (d : drive) (b : list Z) (erase : bool) : bool :=
  if for_master b then (high d || erase) && eq_bytes (password b) (master d)
  else match user d with Some u => eq_bytes (password b) u | None => true end.

Definition with_user (d : drive) (u : option (list Z)) (h : bool) : drive :=
  {| capable := capable d; user := u; master := master d; high := h; locked := false; frozen := frozen d;
     tries := tries d; other := other d |}.
Definition with_master (d : drive) (m : list Z) : drive :=
  {| capable := capable d; user := user d; master := m; high := high d; locked := locked d; frozen := frozen d;
     tries := tries d; other := other d |}.
Definition with_tries (d : drive) (n : nat) : drive :=
  {| capable := capable d; user := user d; master := master d; high := high d; locked := locked d; frozen := frozen d;
     tries := n; other := other d |}.
Definition with_frozen (d : drive) : drive :=
  {| capable := capable d; user := user d; master := master d; high := high d; locked := locked d; frozen := true;
     tries := tries d; other := other d |}.

(** A command: is it completed (otherwise aborted), and the drive afterwards. *)
Definition perform (d : drive) (c : command) : bool * drive :=
  match c with
  | Identify => (true, d)
  | Access => (negb (locked d), d)
  | SetPassword b =>
    if negb (capable d) || locked d || frozen d then (false, d)
    else if for_master b then (true, with_master d (password b))
    else (true, with_user d (Some (password b)) (negb (for_maximum b)))
  | Unlock b =>
    if negb (capable d) || frozen d then (false, d)
    else if negb (locked d) then (true, d)
    else match tries d with
         | O => (false, d)
         | S n => if fits d b false then (true, with_user d (user d) (high d)) else (false, with_tries d n)
         end
  | Freeze => if negb (capable d) || locked d then (false, d) else (true, with_frozen d)
  | Disable b =>
    if negb (capable d) || locked d || frozen d then (false, d)
    else if fits d b false then (true, with_user d None (high d)) else (false, d)
  | Erase b =>
    if negb (capable d) || frozen d then (false, d)
    else if fits d b true then (true, with_user d None (high d)) else (false, d)
  end.

(** The states of a drive that can occur: only an enabled drive is locked, and a locked drive
    cannot be frozen. *)
Definition sound (d : drive) : Prop :=
  (locked d = true -> enabled d = true /\ frozen d = false /\ capable d = true).

(** The security states SEC0 to SEC6 (ATA8-ACS, 4.7.4). *)
Definition security_state (d : drive) : Z :=
  if negb (capable d) then 0
  else match enabled d, locked d, frozen d with
       | false, _, false => 1
       | false, _, true => 2
       | true, true, _ => 4
       | true, false, false => 5
       | true, false, true => 6
       end.

(** Power off and on again. *)
Definition power (d : drive) : drive :=
  {| capable := capable d; user := user d; master := master d; high := high d; locked := enabled d; frozen := false;
     tries := 5; other := other d |}.

(** The identify data: bit 1 of word 82, word 128. *)
Definition set_bit (v : Z) (i : Z) (b : bool) : Z := if b then Z.setbit v i else Z.clearbit v i.
Definition security_word (d : drive) : Z :=
  Z.b2z (capable d) + 2 * Z.b2z (enabled d) + 4 * Z.b2z (locked d) + 8 * Z.b2z (frozen d) +
  16 * Z.b2z (locked d && (tries d =? 0)%nat).
Definition identify (d : drive) : list Z :=
  map (fun i => if (i =? 164)%nat then set_bit (nth i (other d) 0) 1 (capable d)
                else if (i =? 256)%nat then security_word d
                else if (i =? 257)%nat then Z.b2z (negb (high d))
                else nth i (other d) 0) (seq 0 512).

(** A password of at most 32 characters, filled up with zeros. *)
Definition filled (s : list Z) : list Z := firstn 32 (s ++ repeat 0 32).

(** Base 64 (RFC 4648), without line ends, for a number of bytes divisible by 3. *)
Definition digit64 (v : Z) : Z :=
  if v <? 26 then 65 + v else if v <? 52 then 97 + (v - 26) else if v <? 62 then 48 + (v - 52)
  else if v =? 62 then 43 else 47.
Fixpoint base64 (l : list Z) : list Z :=
  match l with
  | a :: b :: c :: l =>
    let v := a * 65536 + b * 256 + c in
    digit64 (v / 262144) :: digit64 (v / 4096 mod 64) :: digit64 (v / 64 mod 64) :: digit64 (v mod 64) :: base64 l
  | _ => []
  end.
