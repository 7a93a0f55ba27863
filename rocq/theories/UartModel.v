(** The flash on the other side of a serial line: src/uart_flash.c on the target,
    tools/uart-flash-server/ufserver.c on the host, and the line between them.
    Simplifications: bytes are not lost or changed on the line, and neither direction is
    limited in how many bytes it holds; the host's read(2) blocks until a byte is there and
    does not fail (raw mode, one byte at least); messages for the user and msync are left
    out.  WAIT_CYCLES is [cycles], FIRMWARE_PARTITION_SIZE + SWAP_SIZE is [size]. *)
From Verif Require Import Base UartSpec.

Definition ACK : Z := 6.          (* uart_flash.c:41, ufserver.c:51 *)
Definition CMD_WOLF : Z := 87.    (* 'W' *)
Definition CMD_VER : Z := 86.     (* 'V' *)
Definition CMD_APP : Z := 42.     (* '*' *)
Definition CMD_WRITE : Z := 1.
Definition CMD_READ : Z := 2.
Definition CMD_ERASE : Z := 3.

(** * The target *)

(** Code on the target: it ends with a result, sends a byte (uart_tx), or looks whether a byte
    has arrived (uart_rx). *)
Inductive tproc := Tret (r : result) | Tx (b : Z) (k : tproc) | Rx (k : option Z -> tproc).

Section Target.
Context (cycles : nat).

(** uart_flash.c:50-59 [wait_ack]: [n] is how many polls are left; [k true] for 0. *)
Fixpoint wait_n (n : nat) (k : bool -> tproc) : tproc :=
  match n with
  | O => k false
  | S n' => Rx (fun c => match c with
                         | Some b => if b =? ACK then k true else wait_n n' k
                         | None => wait_n n' k
                         end)
  end.
Definition wait_ack (k : bool -> tproc) : tproc := wait_n (pred cycles) k.

(** uart_flash.c:61-70 [uart_rx_timeout] with READ_TIMEOUT 1; [k None] for -1. *)
Fixpoint rx_n (n : nat) (k : option Z -> tproc) : tproc :=
  match n with
  | O => k None
  | S n' => Rx (fun c => match c with Some b => k (Some b) | None => rx_n n' k end)
  end.
Definition rx_timeout (k : option Z -> tproc) : tproc := rx_n (pred cycles) k.

(** The loops at uart_flash.c:87-91, 92-96, 114-118, 142-146 and the sequence at 165-179: send
    bytes, each to be acknowledged. *)
Fixpoint send_all (l : list Z) (k : bool -> tproc) : tproc :=
  match l with
  | [] => k true
  | b :: l' => Tx b (wait_ack (fun ok => if ok then send_all l' k else k false))
  end.

(** The command at uart_flash.c:76-86, 103-113, 131-141. *)
Definition command (c a len : Z) : list Z := CMD_WOLF :: c :: le_bytes 4 a ++ le_bytes 4 len.

(** uart_flash.c:73-98 [ext_flash_write]; [data] holds [len] bytes. *)
Definition ext_flash_write (a : Z) (data : list Z) : tproc :=
  send_all (command CMD_WRITE a (zlen data)) (fun ok =>
    if ok then send_all data (fun ok2 => if ok2 then Tret (zlen data, []) else Tret (-1, []))
    else Tret (-1, [])).

(** uart_flash.c:119-124, the loop; [d]: bytes read so far. *)
Fixpoint read_loop (n : nat) (d : list Z) : tproc :=
  match n with
  | O => Tret (zlen d, d)
  | S n' => rx_timeout (fun c => match c with
                                 | Some b => Tx ACK (read_loop n' (d ++ [b]))
                                 | None => Tret (0, d ++ [0])
                                 end)
  end.

(** uart_flash.c:100-126 [ext_flash_read]. *)
Definition ext_flash_read (a : Z) (n : nat) : tproc :=
  send_all (command CMD_READ a (Z.of_nat n)) (fun ok => if ok then read_loop n [] else Tret (-1, [])).

(** uart_flash.c:128-151 [ext_flash_erase]. *)
Definition ext_flash_erase (a : Z) (n : nat) : tproc :=
  send_all (command CMD_ERASE a (Z.of_nat n)) (fun ok =>
    if ok then wait_ack (fun ok2 => if ok2 then Tret (0, []) else Tret (-1, [])) else Tret (-1, [])).

(** uart_flash.c:153-161 [ext_flash_lock], [ext_flash_unlock]. *)
Definition ext_flash_lock : tproc := wait_ack (fun _ => Tret (0, [])).

(** uart_flash.c:163-180 [uart_send_current_version]; the C function returns nothing, the
    result tells how it ended. *)
Definition send_version (v : Z) : tproc :=
  send_all (CMD_VER :: le_bytes 4 v) (fun ok => if ok then Tret (0, []) else Tret (-1, [])).

Definition start (o : op) : tproc :=
  match o with
  | Read a n => ext_flash_read a n
  | Write a d => ext_flash_write a d
  | Erase a n => ext_flash_erase a n
  | Lock => ext_flash_lock
  | Version v => send_version v
  end.
End Target.

(** * The server *)

(** Code on the host: it receives a byte, sends one, or accesses the mapped file.  [Sdone] is
    the end of one round of the loop in serve_update; [Sbad] an access outside the mapping. *)
Inductive sproc := Sdone | Recv (k : Z -> sproc) | Send (b : Z) (k : sproc)
  | Load (i : Z) (k : Z -> sproc) | Store (i b : Z) (k : sproc) | Sbad.

Section Server.
Context (size : Z).

(** An access to base[i]. *)
Definition load (i : Z) (k : Z -> sproc) : sproc := if (0 <=? i) && (i <? size) then Load i k else Sbad.
Definition store (i b : Z) (k : sproc) : sproc := if (0 <=? i) && (i <? size) then Store i b k else Sbad.

(** ufserver.c:240-245 [send_ack]. *)
Definition send_ack (k : sproc) : sproc := Send ACK k.

(** ufserver.c:247-259 [read_word]: [n] bytes of weight [w] on are missing. *)
Fixpoint word_n (n : nat) (w acc : Z) (k : Z -> sproc) : sproc :=
  match n with
  | O => k acc
  | S n' => Recv (fun b => send_ack (word_n n' (256 * w) (acc + w * b) k))
  end.
Definition read_word (k : Z -> sproc) : sproc := word_n 4 1 0 k.

(** ufserver.c:261-288 [uart_flash_erase]. *)
Fixpoint erase_loop (n : nat) (i : Z) (k : sproc) : sproc :=
  match n with O => k | S n' => store (i mod 2 ^ 32) 255 (erase_loop n' (i + 1) k) end.
Definition uart_flash_erase : sproc :=
  read_word (fun address => read_word (fun len =>
    if (address + len) mod 2 ^ 32 >? size then Sdone
    else erase_loop (Z.to_nat len) address (send_ack Sdone))).

(** ufserver.c:291-319 [uart_flash_read]. *)
Fixpoint sread_loop (n : nat) (i : Z) : sproc :=
  match n with O => Sdone | S n' => load i (fun b => Send b (Recv (fun _ => sread_loop n' (i + 1)))) end.
Definition uart_flash_read : sproc :=
  read_word (fun address => read_word (fun len =>
    if (address + len) mod 2 ^ 32 >? size then Sdone else sread_loop (Z.to_nat len) address)).

(** ufserver.c:321-346 [uart_flash_write]. *)
Fixpoint swrite_loop (n : nat) (i : Z) : sproc :=
  match n with O => Sdone | S n' => Recv (fun b => store i b (send_ack (swrite_loop n' (i + 1)))) end.
Definition uart_flash_write : sproc :=
  read_word (fun address => read_word (fun len =>
    if (address + len) mod 2 ^ 32 >? size then Sdone else swrite_loop (Z.to_nat len) address)).

(** ufserver.c:360-438, one round of the loop in [serve_update]. *)
Definition serve : sproc :=
  Recv (fun h =>
    if h =? CMD_APP then Recv (fun _ => Recv (fun _ => Recv (fun _ => Recv (fun _ => Sdone))))
    else if h =? CMD_VER then send_ack (word_n 4 1 0 (fun _ => Sdone))
    else if h =? CMD_WOLF then
      send_ack (Recv (fun c =>
        if c =? CMD_ERASE then send_ack uart_flash_erase
        else if c =? CMD_READ then send_ack uart_flash_read
        else if c =? CMD_WRITE then send_ack uart_flash_write
        else Sdone))
    else Sdone).
End Server.

(** * Both, and the line *)

(** The target makes calls one after another: [next h] is the next one after the calls and
    results [h], if any.  [up]: bytes on their way to the host; [down]: to the target. *)
Record sys := mkSys { running : option (op * tproc); hist : list (op * result);
  srv : sproc; up : list Z; down : list Z; mem : Z -> Z }.

(** Who goes on: the target, seeing a byte that has arrived; the target, seeing nothing
    although a byte may be on its way; the host.  Or the target is reset. *)
Inductive choice := Tick | Miss | Serve | Reset.

(** What the history says of a call during which the target is reset. *)
Definition cut_off : result := (-2, []).

Definition upd (f : Z -> Z) (i b : Z) : Z -> Z := fun x => if x =? i then b else f x.

Section System.
Context (cycles : nat) (size : Z) (next : list (op * result) -> option op).

Definition target_step (see : bool) (s : sys) : sys :=
  match running s with
  | None => match next (hist s) with
            | Some o => mkSys (Some (o, start cycles o)) (hist s) (srv s) (up s) (down s) (mem s)
            | None => s
            end
  | Some (o, Tret r) => mkSys None (hist s ++ [(o, r)]) (srv s) (up s) (down s) (mem s)
  | Some (o, Tx b k) => mkSys (Some (o, k)) (hist s) (srv s) (up s ++ [b]) (down s) (mem s)
  | Some (o, Rx k) =>
    match see, down s with
    | true, b :: d => mkSys (Some (o, k (Some b))) (hist s) (srv s) (up s) d (mem s)
    | _, _ => mkSys (Some (o, k None)) (hist s) (srv s) (up s) (down s) (mem s)
    end
  end.

Definition server_step (s : sys) : sys :=
  match srv s with
  | Sdone => mkSys (running s) (hist s) (serve size) (up s) (down s) (mem s)
  | Recv k => match up s with
              | b :: u => mkSys (running s) (hist s) (k b) u (down s) (mem s)
              | [] => s
              end
  | Send b k => mkSys (running s) (hist s) k (up s) (down s ++ [b]) (mem s)
  | Load i k => mkSys (running s) (hist s) (k (mem s i)) (up s) (down s) (mem s)
  | Store i b k => mkSys (running s) (hist s) k (up s) (down s) (upd (mem s) i b)
  | Sbad => s
  end.

Definition step (c : choice) (s : sys) : sys :=
  match c with
  | Tick => target_step true s
  | Miss => target_step false s
  | Serve => server_step s
  | Reset => mkSys None (match running s with Some (o, _) => hist s ++ [(o, cut_off)] | None => hist s end) (srv s) (up s) [] (mem s)
  end.

Definition run (l : list choice) (s : sys) : sys := fold_left (fun s c => step c s) l s.

(** Both sides have just started. *)
Definition initial (f : Z -> Z) : sys := mkSys None [] (serve size) [] [] f.
End System.

(** ** Endless schedules *)

(** The system after [t] choices. *)
Fixpoint at_time (cycles : nat) (size : Z) (next : list (op * result) -> option op) (sched : nat -> choice) (s : sys) (t : nat) : sys :=
  match t with O => s | S t' => step cycles size next (sched t') (at_time cycles size next sched s t') end.

(** How many of the [n] choices from [i] on are the target's. *)
Fixpoint turns (sched : nat -> choice) (i n : nat) : nat :=
  match n with
  | O => O
  | S n' => (turns sched i n' + match sched (i + n')%nat with Tick | Miss => 1 | _ => 0 end)%nat
  end.

(** The host waits for a byte, and none is on its way. *)
Definition waits (s : sys) : Prop := (exists k, srv s = Recv k) /\ up s = [].
