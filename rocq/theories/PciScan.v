(** Lemmas for PciProps: buses behind bridges. *)
From Verif Require Import Base BaseLemmas PciSpec PciModel PciProofs PciTree PciBars PciEnum PciBridge.
Local Ltac Zify.zify_post_hook ::= idtac.

(** Window [s .. e) of a bridge. *)
Definition window (st : regs) (id : nat) (k : space) (s e : Z) : Prop :=
  (s = e /\ win_limit st id k < win_base st id k) \/
  (s < e /\ win_base st id k = s /\ win_limit st id k = e - 1 /\ Z.testbit (st id 1) 1 = true).

Fixpoint laid (D : description) (st : regs) (x : fn) (lo hi : curs) {struct x} : Prop :=
  let 'Fn id _ _ l := x in
  match D id with
  | Some bl => bars_laid st id 0 bl lo hi
  | None => exists s e : curs, (forall k, lo k <= s k /\ s k <= e k /\ e k <= hi k) /\
      window st id MemS (s MemS) (e MemS) /\ window st id PfS (s PfS) (e PfS) /\ Z.testbit (st id 1) 2 = true /\
      (fix go (l : list fn) (lo : curs) : Prop :=
         match l with
         | [] => forall k, lo k <= e k
         | y :: l => exists mid : curs, (forall k, lo k <= mid k) /\ laid D st y lo mid /\ go l mid
         end) l s
  end.

Definition laid_list (D : description) (st : regs) (l : list fn) (lo hi : curs) : Prop :=
  (fix go (l : list fn) (lo : curs) : Prop :=
     match l with
     | [] => forall k, lo k <= hi k
     | y :: l => exists mid : curs, (forall k, lo k <= mid k) /\ laid D st y lo mid /\ go l mid
     end) l lo.

Lemma laid_eq : forall D st id d f l lo hi, laid D st (Fn id d f l) lo hi =
  match D id with
  | Some bl => bars_laid st id 0 bl lo hi
  | None => exists s e : curs, (forall k, lo k <= s k /\ s k <= e k /\ e k <= hi k) /\
      window st id MemS (s MemS) (e MemS) /\ window st id PfS (s PfS) (e PfS) /\ Z.testbit (st id 1) 2 = true /\ laid_list D st l s e
  end.
Proof. reflexivity. Qed.

Fixpoint numbered (D : description) (st : regs) (x : fn) (lo hi : Z) {struct x} : Prop :=
  let 'Fn id _ _ l := x in
  match D id with
  | Some _ => hi = lo
  | None => secondary st id = lo + 1 /\ subordinate st id = hi /\
      (fix go (l : list fn) (lo : Z) : Prop :=
         match l with
         | [] => hi = lo
         | y :: l => exists mid, lo <= mid /\ numbered D st y lo mid /\ go l mid
         end) l (lo + 1)
  end.

Definition numbered_list (D : description) (st : regs) (l : list fn) (lo hi : Z) : Prop :=
  (fix go (l : list fn) (lo : Z) : Prop :=
     match l with
     | [] => hi = lo
     | y :: l => exists mid, lo <= mid /\ numbered D st y lo mid /\ go l mid
     end) l lo.

Lemma numbered_eq : forall D st id d f l lo hi, numbered D st (Fn id d f l) lo hi =
  match D id with
  | Some _ => hi = lo
  | None => secondary st id = lo + 1 /\ subordinate st id = hi /\ numbered_list D st l (lo + 1) hi
  end.
Proof. reflexivity. Qed.

Lemma laid_list_frame0 : forall D st st' l, (forall x, In x l -> forall lo hi, laid D st x lo hi -> laid D st' x lo hi) ->
  forall lo hi, laid_list D st l lo hi -> laid_list D st' l lo hi.
Proof.
  intros D st st'. induction l as [|y l IH]; intros H lo hi L; [exact L|]. destruct L as (mid & A & B & C). exists mid. split; [exact A|].
  split; [apply H; [left; reflexivity|exact B]|]. apply IH; [|exact C]. intros x X. apply H. right. exact X.
Qed.

Lemma laid_frame : forall D st st' x, (forall y, In y (fns x) -> forall r, st' (fid y) r = st (fid y) r) ->
  forall lo hi, laid D st x lo hi -> laid D st' x lo hi.
Proof.
  intros D st st'. apply (fn_rect' (fun x => (forall y, In y (fns x) -> forall r, st' (fid y) r = st (fid y) r) ->
    forall lo hi, laid D st x lo hi -> laid D st' x lo hi)).
  intros id d f l IH E lo hi. rewrite !laid_eq. assert (EI : forall r, st' id r = st id r) by (intro r; exact (E _ (in_fns_self (Fn id d f l)) r)).
  destruct (D id) as [bl|].
  - apply bars_laid_frame. intros r _. apply EI.
  - intros (s & e & A & B & C & T & L). exists s, e. split; [exact A|]. unfold window, win_base, win_limit. rewrite !EI.
    split; [exact B|]. split; [exact C|]. split; [exact T|]. apply (laid_list_frame0 D st); [|exact L].
    intros x X lo' hi'. apply (IH x X). intros y Y. apply E. rewrite fns_eq. right. exact (in_all x l X y Y).
Qed.

Lemma laid_list_frame : forall D st st' l, (forall y, In y (all_fns l) -> forall r, st' (fid y) r = st (fid y) r) ->
  forall lo hi, laid_list D st l lo hi -> laid_list D st' l lo hi.
Proof.
  intros D st st' l E. apply laid_list_frame0. intros x X. apply laid_frame. intros y Y. apply E. exact (in_all x l X y Y).
Qed.

Lemma numbered_list_frame0 : forall D st st' l, (forall x, In x l -> forall lo hi, numbered D st x lo hi -> numbered D st' x lo hi) ->
  forall lo hi, numbered_list D st l lo hi -> numbered_list D st' l lo hi.
Proof.
  intros D st st'. induction l as [|y l IH]; intros H lo hi L; [exact L|]. destruct L as (mid & A & B & C). exists mid. split; [exact A|].
  split; [apply H; [left; reflexivity|exact B]|]. apply IH; [|exact C]. intros x X. apply H. right. exact X.
Qed.

Lemma numbered_frame : forall D st st' x, (forall y, In y (fns x) -> forall r, st' (fid y) r = st (fid y) r) ->
  forall lo hi, numbered D st x lo hi -> numbered D st' x lo hi.
Proof.
  intros D st st'. apply (fn_rect' (fun x => (forall y, In y (fns x) -> forall r, st' (fid y) r = st (fid y) r) ->
    forall lo hi, numbered D st x lo hi -> numbered D st' x lo hi)).
  intros id d f l IH E lo hi. rewrite !numbered_eq. assert (EI : forall r, st' id r = st id r) by (intro r; exact (E _ (in_fns_self (Fn id d f l)) r)).
  destruct (D id) as [bl|]; [intro H; exact H|]. intros (A & B & L). unfold secondary, subordinate in *. rewrite !EI.
  split; [exact A|]. split; [exact B|]. apply (numbered_list_frame0 D st); [|exact L].
  intros x X lo' hi'. apply (IH x X). intros y Y. apply E. rewrite fns_eq. right. exact (in_all x l X y Y).
Qed.

Lemma numbered_list_frame : forall D st st' l, (forall y, In y (all_fns l) -> forall r, st' (fid y) r = st (fid y) r) ->
  forall lo hi, numbered_list D st l lo hi -> numbered_list D st' l lo hi.
Proof.
  intros D st st' l E. apply numbered_list_frame0. intros x X. apply numbered_frame. intros y Y. apply E. exact (in_all x l X y Y).
Qed.

Lemma laid_list_snoc : forall D st x p lo mid hi, laid_list D st p lo mid -> (forall k, mid k <= hi k) -> laid D st x mid hi -> laid_list D st (p ++ [x]) lo hi.
Proof.
  intros D st x p. induction p as [|y p IH]; intros lo mid hi L M X; cbn [app laid_list].
  - exists hi. cbn [laid_list] in L. split; [intro k; specialize (L k); specialize (M k); lia|]. split; [|intro k; lia].
    destruct x as [id d f l]. rewrite laid_eq in *. destruct (D id) as [bl|].
    + apply (bars_laid_weaken bl st id 0 mid); assumption.
    + destruct X as (s & e & A & R). exists s, e. split; [|exact R]. intro k. specialize (A k). specialize (L k). lia.
  - destruct L as (m1 & A & B & C). exists m1. split; [exact A|]. split; [exact B|]. exact (IH m1 mid hi C M X).
Qed.

Lemma numbered_list_snoc : forall D st x p lo mid hi, numbered_list D st p lo mid -> mid <= hi -> numbered D st x mid hi -> numbered_list D st (p ++ [x]) lo hi.
Proof.
  intros D st x p. induction p as [|y p IH]; intros lo mid hi L M X; cbn [app numbered_list].
  - cbn [numbered_list] in L. subst mid. exists hi. split; [exact M|]. split; [exact X|reflexivity].
  - destruct L as (m1 & A & B & C). exists m1. split; [exact A|]. split; [exact B|]. exact (IH m1 mid hi C M X).
Qed.

(** Registers the enumeration changes. *)
Definition touched (D : description) (id : nat) (r : Z) : Prop :=
  match D id with Some _ => 4 <= r < 10 | None => In r [1; 6; 8; 9; 12] end.

(** Outcome of enumerating the functions [l]. *)
Definition done_fns (D : description) (st : regs) (i : info) (l : list fn) (st' : regs) (i' : info) : Prop :=
  agree_off (ids l) st st' /\ (forall x r, ~ touched D x r -> st' x r = st x r) /\
  same_limits i i' /\ curr_bus i' = curr_bus i + Z.of_nat (bridges D l) /\
  (forall k, cursor i k <= cursor i' k <= cursor i k + need D k l) /\
  laid_list D st' l (cursor i) (cursor i') /\ numbered_list D st' l (curr_bus i) (curr_bus i').

Lemma zsum_app : forall a b, zsum (a ++ b) = zsum a + zsum b.
Proof. intros a b. unfold zsum. induction a as [|x a IH]; cbn [app fold_right]; lia. Qed.
Lemma need_app : forall D k a b, need D k (a ++ b) = need D k a + need D k b.
Proof. intros. unfold need. rewrite all_app, map_app. apply zsum_app. Qed.
Lemma need_one : forall D k id d f l, need D k [Fn id d f l] = fn_need D k (Fn id d f l) + need D k l.
Proof. intros. unfold need. rewrite all_cons, fns_eq. cbn [app map]. change (all_fns []) with (@nil fn). rewrite app_nil_r. reflexivity. Qed.
Lemma fn_need_nonneg : forall D k x, 0 <= fn_need D k x.
Proof. intros D k x. unfold fn_need. destruct (D (fid x)) as [bl|]; [apply (bars_sum_nonneg k bl)|]. destruct k; vm_compute; discriminate. Qed.
Lemma need_nonneg : forall D k l, 0 <= need D k l.
Proof.
  intros D k l. unfold need. generalize (all_fns l). intro L. induction L as [|x L IH]; cbn [map zsum fold_right]; [lia|]. pose proof (fn_need_nonneg D k x). unfold zsum in IH. lia.
Qed.
Lemma bridges_app : forall D a b, bridges D (a ++ b) = (bridges D a + bridges D b)%nat.
Proof. intros. unfold bridges. rewrite all_app, filter_app, app_length. reflexivity. Qed.
Lemma bridges_one : forall D id d f l, bridges D [Fn id d f l] = ((match D id with None => 1 | Some _ => 0 end) + bridges D l)%nat.
Proof.
  intros. unfold bridges. rewrite all_cons, fns_eq. change (all_fns []) with (@nil fn). rewrite app_nil_r. cbn [filter fid]. destruct (D id); reflexivity.
Qed.

Lemma fn_ok_frame : forall D m st st' x, (forall r, st' (fid x) r = st (fid x) r) -> fn_ok D m st x -> fn_ok D m st' x.
Proof.
  intros D m st st' [id d f l] E H. cbn [fid] in E. unfold fn_ok in *. destruct H as (H1 & H2 & H3 & H4 & H5 & H6 & H7 & H8).
  split; [exact H1|]. split; [exact H2|]. split; [intro r; rewrite E; apply H3|]. rewrite E. split; [exact H4|]. split; [exact H5|]. split; [exact H6|]. split; [exact H7|].
  unfold header_type, subordinate in *. rewrite !E. destruct (D id) as [bl|]; [|exact H8].
  destruct H8 as (A1 & A2 & A3 & A4 & A5). repeat (split; [assumption|]). intros n bd N. specialize (A5 n bd N). unfold wired in *. rewrite E. exact A5.
Qed.

Lemma bus_ok_frame : forall st st' l, (forall x, st' x 3 = st x 3) -> bus_ok st l -> bus_ok st' l.
Proof.
  intros st st' l E (A & B). split; [exact A|]. intros id d f l' I N. destruct (B id d f l' I N) as (id0 & l0 & X & M). exists id0, l0.
  split; [exact X|]. unfold multifunction in *. rewrite E. exact M.
Qed.

Lemma set_cursor_self : forall i k, set_cursor i k (cursor i k) = i.
Proof. intros [] []; reflexivity. Qed.

(** Closing a window. *)
Lemma close_ok : forall start n k w off bit st i cmd, 0 <= n <= 31 -> 0 <= start -> start <= cursor i k -> cursor i k + 2 ^ n <= limit i k -> limit i k < 2 ^ 32 ->
  (start = cursor i k /\ close_window start (2 ^ n) k w off bit st i cmd = Some (off st, i, cmd)) \/
  (start < cursor i k /\ exists e, e mod 2 ^ n = 0 /\ cursor i k <= e < cursor i k + 2 ^ n /\
     close_window start (2 ^ n) k w off bit st i cmd = Some (w st start (e - 1), set_cursor i k e, Z.lor cmd bit)).
Proof.
  intros start n k w off bit st i cmd N C S L LM. unfold close_window. destruct (Z.eqb_spec start (cursor i k)) as [E|E]; cbn [negb].
  - left. split; [exact E|reflexivity].
  - right. split; [lia|]. destruct (check_up_ok (cursor i k) n (limit i k) N ltac:(lia) L LM) as (e & E1 & E2 & E3). exists e. split; [exact E2|]. split; [exact E3|].
    rewrite E1. rewrite u32_id by lia. reflexivity.
Qed.

Section Scan.
Context (D : description) (m : machine) (mc : mech) (OK : mech_ok mc) (ND : NoDup (ids (root m))).

Lemma held_of : forall st0 st F B id d f l, opened st (root m) 0 F B -> B <= 255 -> bus_ok st0 F -> In (Fn id d f l) F -> held m B d f id st.
Proof.
  intros st0 st F B id d f l O BB BO I st' A. apply (target_in m st0 st' F B id d f l ND); try assumption.
  apply (opened_frame st); [exact ND|exact O|]. apply (agree_incl [id]); [|exact A]. intros x [<- |[]]. apply (fid_in (Fn id d f l)). exact I.
Qed.

(** One window of a bridge after its bus was enumerated. *)
Lemma mem_window : forall (b d f : Z) (id : nat) k start st i cmd, 0 <= b < 256 -> 0 <= d < 32 -> 0 <= f < 8 -> (forall r, 0 <= writable m id r < 2 ^ 32) ->
  held m b d f id st -> k = MemS \/ k = PfS -> writable m id (win_reg k) = 4293984240 ->
  0 <= start <= cursor i k -> start mod 2 ^ 20 = 0 -> cursor i k + 2 ^ 20 <= limit i k -> limit i k < 2 ^ 32 ->
  let o := 4 * win_reg k in
  exists st' e cmd', close_window start 1048576 k
     (fun st a b0 => pci_config_write16 m mc (pci_config_write16 m mc st b d f o (Z.shiftr a 16)) b d f (o + 2) (Z.shiftr b0 16))
     (fun st => pci_config_write16 m mc (pci_config_write16 m mc st b d f o 65535) b d f (o + 2) 0) 2 st i cmd = Some (st', set_cursor i k e, cmd') /\
    only id [win_reg k] st st' /\ cursor i k <= e < cursor i k + 2 ^ 20 /\
    ((start = e /\ win_limit st' id k < win_base st' id k /\ cmd' = cmd) \/
     (start < e /\ win_base st' id k = start /\ win_limit st' id k = e - 1 /\ cmd' = Z.lor cmd 2)).
Proof.
  intros b d f id k start st i cmd HB HD HF WB H K W S SM L LM o.
  match goal with |- context [close_window start 1048576 k ?w ?off 2 st i cmd] => set (WW := w); set (OF := off) end.
  change 1048576 with (2 ^ 20).
  destruct (close_ok start 20 k WW OF 2 st i cmd ltac:(lia) ltac:(lia) ltac:(lia) L LM) as [(E1 & E2)|(E1 & e & E3 & E4 & E2)]; rewrite E2.
  - exists (OF st), start, cmd. rewrite E1 at 1. rewrite set_cursor_self. split; [reflexivity|].
    assert (R1 : 0 <= 65535 < 2 ^ 16) by (split; [discriminate|reflexivity]). assert (R2 : 0 <= 0 < 2 ^ 16) by (split; [discriminate|reflexivity]).
    destruct (window_ok m mc OK b d f id HB HD HF WB st k 65535 0 H K W R1 R2) as (A1 & A2 & A3).
    split; [exact A1|]. split; [pose proof (pow2_pos 20 ltac:(lia)); lia|]. left. split; [reflexivity|]. split; [|reflexivity]. unfold OF, o. rewrite A2, A3. vm_compute. reflexivity.
  - exists (WW st start (e - 1)), e, (Z.lor cmd 2). split; [reflexivity|]. pose proof (pow2_pos 20 ltac:(lia)) as P20.
    destruct (win_addr start ltac:(lia)) as (B1 & B2). destruct (win_addr (e - 1) ltac:(lia)) as (C1 & C2).
    destruct (window_ok m mc OK b d f id HB HD HF WB st k _ _ H K W B1 C1) as (A1 & A2 & A3).
    split; [exact A1|]. split; [exact E4|]. right. split; [lia|]. unfold WW, o. rewrite A2, A3, B2, C2.
    rewrite (div_mul_of_mod start _ _ P20 SM). split; [lia|]. split; [|reflexivity].
    assert (DE : (e - 1) / 2 ^ 20 = e / 2 ^ 20 - 1).
    { pose proof (Z.div_mod e (2 ^ 20) ltac:(lia)). rewrite E3 in *. apply div_unique_range; [exact P20|]. lia. }
    rewrite DE. pose proof (div_mul_of_mod e _ _ P20 E3). lia.
Qed.

Lemma io_window : forall (b d f : Z) (id : nat) start st i cmd, 0 <= b < 256 -> 0 <= d < 32 -> 0 <= f < 8 -> (forall r, 0 <= writable m id r < 2 ^ 32) ->
  held m b d f id st -> 0 <= start <= cursor i IoS -> cursor i IoS + 2 ^ 12 <= 65536 ->
  exists st' e cmd', close_window start 4096 IoS
     (fun st a b0 => pci_config_write8 m mc (pci_config_write8 m mc st b d f 48 (u8 (Z.shiftr a 8))) b d f 50 (u8 (Z.shiftr b0 8)))
     (fun st => pci_config_write8 m mc (pci_config_write8 m mc st b d f 48 255) b d f 50 0) 1 st i cmd = Some (st', set_cursor i IoS e, cmd') /\
    only id [12] st st' /\ cursor i IoS <= e < cursor i IoS + 2 ^ 12 /\ (cmd' = cmd \/ cmd' = Z.lor cmd 1).
Proof.
  intros b d f id start st i cmd HB HD HF WB H S L.
  match goal with |- context [close_window start 4096 IoS ?w ?off 1 st i cmd] => set (WW := w); set (OF := off) end.
  assert (W8 : forall u v, only id [12] st (pci_config_write8 m mc (pci_config_write8 m mc st b d f 48 u) b d f 50 v)).
  { intros u v. rewrite (wr8 m mc OK b d f id HB HD HF WB st 48 u H) by lia.
    match goal with |- context [pci_config_write8 m mc ?s b d f 50 v] => set (st1 := s) end.
    assert (H1 : held m b d f id st1) by (apply held_set; exact H). rewrite (wr8 m mc OK b d f id HB HD HF WB st1 50 v H1) by lia.
    change (50 / 4) with 12. apply (only_trans id _ st st1); apply only_set. }
  change 4096 with (2 ^ 12). cbn [limit] in *.
  destruct (close_ok start 12 IoS WW OF 1 st i cmd ltac:(lia) ltac:(lia) ltac:(lia) ltac:(cbn [limit]; lia) ltac:(reflexivity)) as [(E1 & E2)|(E1 & e & E3 & E4 & E2)]; rewrite E2.
  - exists (OF st), start, cmd. rewrite E1 at 1. rewrite set_cursor_self. split; [reflexivity|]. split; [exact (W8 255 0)|]. split; [pose proof (pow2_pos 12 ltac:(lia)); lia|left; reflexivity].
  - exists (WW st start (e - 1)), e, (Z.lor cmd 1). split; [reflexivity|]. split; [exact (W8 (u8 (Z.shiftr start 8)) (u8 (Z.shiftr (e - 1) 8)))|]. split; [exact E4|right; reflexivity].
Qed.
End Scan.
