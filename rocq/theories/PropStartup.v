(** PropStartup: C73 and C74, creating bindings on file descriptors and starting the daemon. *)
From Verif Require Import Base Lists Core Astlpc Startup.

(** ** Specification *)

(** What happened: calls and their answers. *)
Inductive ev := Ev (c : call) (a : answer c).
(** What the interfaces allow as answers: a size is an unsigned 32-bit number, a register a
    byte, a signed return code anything. *)
Definition allowed (c : call) : answer c -> Prop :=
  match c return answer c -> Prop with
  | CGetSize _ => fun o => match o with Some n => 0 <= n < 2 ^ 32 | None => True end
  | CPread _ _ => fun o => match o with Some v => is_byte v | None => True end
  | _ => fun _ => True
  end.
(** [exec p tr r]: [p] can make the calls [tr] and return [r]. *)
Fixpoint exec {A} (p : prog A) (tr : list ev) (r : A) : Prop :=
  match p with
  | Ret a => tr = [] /\ r = a
  | Do c k => exists a t, tr = Ev c a :: t /\ allowed c a /\ exec (k a) t r
  end.
(** [faults p tr]: after [tr], [p] stores through a null pointer. *)
Fixpoint faults {A} (p : prog A) (tr : list ev) : Prop :=
  match p with
  | Ret a => False
  | Do CFault _ => tr = []
  | Do c k => exists a t, tr = Ev c a :: t /\ allowed c a /\ faults (k a) t
  end.

(** What is held after the calls, in the order it was obtained. *)
Fixpoint drop (x : Z) (l : list Z) : list Z :=
  match l with [] => [] | y :: t => if x =? y then t else y :: drop x t end.
Record held := mkHeld {
  h_fds : list Z;                (* open file descriptors *)
  h_maps : list (Z * Z);         (* mappings: address and size *)
  h_heap : list Z;               (* bindings on the heap *)
  h_pcaps : list Z;              (* pcap handles *)
  h_dumps : list Z;              (* capture files *)
  h_busses : list Z }.           (* bindings registered *)
Definition nothing : held := mkHeld [] [] [] [] [] [].
Definition fd_got (fd : Z) (s : held) : held :=
  if fd <? 0 then s else mkHeld (h_fds s ++ [fd]) (h_maps s) (h_heap s) (h_pcaps s) (h_dumps s) (h_busses s).
Definition after1 (s : held) (e : ev) : held :=
  match e with
  | Ev c a =>
    match c return answer c -> held with
    | CAlloc _ => fun a => match a with Some p => mkHeld (h_fds s) (h_maps s) (h_heap s ++ [p]) (h_pcaps s) (h_dumps s) (h_busses s) | None => s end
    | CFree _ p => fun _ => mkHeld (h_fds s) (h_maps s) (drop p (h_heap s)) (h_pcaps s) (h_dumps s) (h_busses s)
    | COpen _ => fun a => fd_got a s
    | CSocket => fun a => fd_got a s
    | CClose fd => fun _ => mkHeld (drop fd (h_fds s)) (h_maps s) (h_heap s) (h_pcaps s) (h_dumps s) (h_busses s)
    | CMmap _ n => fun a => match a with Some b => mkHeld (h_fds s) (h_maps s ++ [(b, n)]) (h_heap s) (h_pcaps s) (h_dumps s) (h_busses s) | None => s end
    | CPcapOpen => fun a => match a with Some p => mkHeld (h_fds s) (h_maps s) (h_heap s) (h_pcaps s ++ [p]) (h_dumps s) (h_busses s) | None => s end
    | CPcapClose p => fun _ => mkHeld (h_fds s) (h_maps s) (h_heap s) (drop p (h_pcaps s)) (h_dumps s) (h_busses s)
    | CDumpOpen _ _ => fun a => match a with Some p => mkHeld (h_fds s) (h_maps s) (h_heap s) (h_pcaps s) (h_dumps s ++ [p]) (h_busses s) | None => s end
    | CDumpClose p => fun _ => mkHeld (h_fds s) (h_maps s) (h_heap s) (h_pcaps s) (drop p (h_dumps s)) (h_busses s)
    | CRegister p _ => fun _ => mkHeld (h_fds s) (h_maps s) (h_heap s) (h_pcaps s) (h_dumps s) (h_busses s ++ [p])
    | CUnregister p => fun _ => mkHeld (h_fds s) (h_maps s) (h_heap s) (h_pcaps s) (h_dumps s) (drop p (h_busses s))
    | _ => fun _ => s
    end a
  end.
Definition after (s : held) (tr : list ev) : held := fold_left after1 tr s.

(** A call is made on things that are held. *)
Definition proper1 (s : held) (e : ev) : Prop :=
  match e with
  | Ev (CFree _ p) _ => In p (h_heap s)
  | Ev (CClose fd) _ | Ev (CGetSize fd) _ | Ev (CMapLpc fd _ _) _ | Ev (CMmap fd _) _
  | Ev (CPread fd _) _ | Ev (CPwrite fd _ _) _ | Ev (CBind fd) _ | Ev (CListen fd) _ => In fd (h_fds s)
  | Ev (CSetStatus p _) _ | Ev (CRegister p _) _ => In p (h_heap s)
  | Ev (CUnregister p) _ => In p (h_busses s)
  | Ev (CDumpOpen p _) _ | Ev (CPcapClose p) _ => In p (h_pcaps s)
  | Ev (CDumpClose p) _ => In p (h_dumps s)
  | _ => True
  end.
Fixpoint proper (s : held) (tr : list ev) : Prop :=
  match tr with [] => True | e :: t => proper1 s e /\ proper (after1 s e) t end.

(** A call failed. *)
Definition failed (e : ev) : bool :=
  match e with
  | Ev c a =>
    match c return answer c -> bool with
    | CAlloc _ => fun a => match a with None => true | _ => false end
    | COpen _ | CSocket => fun a => a <? 0
    | CGetSize _ => fun a => match a with None => true | _ => false end
    | CMapLpc _ _ _ | CBind _ | CListen _ | CPcapInit | CPwrite _ _ _ => fun a => negb a
    | CMmap _ _ => fun a => match a with None => true | _ => false end
    | CPcapOpen | CDumpOpen _ _ | CPread _ _ => fun a => match a with None => true | _ => false end
    | CRegister _ _ => fun a => a <? 0
    | _ => fun _ => false
    end a
  end.

(** ** Proof machinery *)

Fixpoint wp {A} (p : prog A) (g : list ev) (Q : A -> list ev -> Prop) : Prop :=
  match p with
  | Ret a => Q a g
  | Do c k => forall a, allowed c a -> wp (k a) (g ++ [Ev c a]) Q
  end.
Lemma wp_sound {A} (p : prog A) : forall g Q tr r, wp p g Q -> exec p tr r -> Q r (g ++ tr).
Proof.
  induction p as [a|c k IH]; intros g Q tr r Hw He; cbn in *.
  - destruct He as [-> ->]. now rewrite app_nil_r.
  - destruct He as (a & t & -> & Ha & He). specialize (IH a _ _ _ _ (Hw a Ha) He). now rewrite <- app_assoc in IH.
Qed.
Lemma wp_start {A} (p : prog A) (Q : A -> list ev -> Prop) tr r : wp p [] Q -> exec p tr r -> Q r tr.
Proof. intros H He. exact (wp_sound p [] Q tr r H He). Qed.
Lemma wp_bind {A B} (p : prog A) (f : A -> prog B) : forall g Q, wp p g (fun a g' => wp (f a) g' Q) -> wp (bind p f) g Q.
Proof. induction p as [a|c k IH]; intros g Q H; cbn in *; [exact H|]. intros a Ha. apply IH, H, Ha. Qed.
Lemma wp_mono {A} (p : prog A) : forall g (Q R : A -> list ev -> Prop), (forall a g', Q a g' -> R a g') -> wp p g Q -> wp p g R.
Proof. induction p as [a|c k IH]; intros g Q R HQ H; cbn in *; [now apply HQ|]. intros a Ha. eapply IH; [exact HQ|]. now apply H. Qed.

(** ** C73: creating an astlpc binding on files *)

(** An access of [n] bytes at [off] of the window that [b] uses lies in a mapping. *)
Definition in_mapping (b : fbinding) (off n : Z) (m : Z * Z) : Prop :=
  fst m <= fb_map b + off /\ fb_map b + off + n <= fst m + snd m.
(** The reserved memory, of [size] bytes, is asked for at the top of the 28-bit firmware
    address space. *)
Definition at_top (size : Z) (e : ev) : Prop :=
  match e with
  | Ev c a => match c return answer c -> Prop with
              | CMapLpc _ addr n => fun ok => ok = true /\ n = size /\ (0 < size <= 2 ^ 28 -> addr + size = 2 ^ 28)
              | _ => fun _ => True
              end a
  end.
Lemma top_addr size : 0 < size <= 2 ^ 28 -> Z.land 268435455 (w32 (- size)) + size = 2 ^ 28.
Proof.
  intros H. change 268435455 with (Z.ones 28). rewrite Z.land_comm, Z.land_ones by lia. unfold w32.
  rewrite <- Znumtheory.Zmod_div_mod; [|lia|lia|exists (2 ^ 4); lia].
  destruct (Z.eq_dec size (2 ^ 28)) as [->|Hn]; [reflexivity|].
  replace (- size) with ((2 ^ 28 - size) + (-1) * 2 ^ 28) by lia. rewrite Z.mod_add by lia. rewrite Z.mod_small by lia. lia.
Qed.

Ltac leaf := repeat match goal with
  | H : (?x <? ?y) = _ |- context [?x <? ?y] => rewrite H
  | |- context [?x =? ?x] => rewrite Z.eqb_refl
  end.

(** Whatever the kernel answers: mctp_astlpc_init_fileio returns a binding exactly if no call
    failed.  If so the binding is a BMC's with the largest MTU, and what is held is the
    binding, one descriptor, that of the given path, and one mapping, of the size the driver
    reported; the window is the last MiB of the mapping, and the reserved memory appears at
    the top of the firmware address space.  (That the mapping is large enough for the window
    is not checked: with a smaller one the window begins before it.)  If not, no descriptor stays open and the binding
    is not on the heap any more.  Nothing is used that is not open. *)
Theorem C73_fileio path tr r : exec (init_fileio path) tr r ->
  let s := after nothing tr in
  proper nothing tr /\
  (existsb failed tr = true <-> r = None) /\
  match r with
  | Some b =>
      fb_core b = astlpc_init true 0 /\ h_heap s = [fb_ptr b] /\ h_fds s = [fb_kcs b] /\
      In (Ev (COpen path) (fb_kcs b)) tr /\
      exists base size, h_maps s = [(base, size)] /\
        (exists fd, In (Ev (CGetSize fd) (Some size)) tr) /\ Forall (at_top size) tr /\
        (1048576 <= size -> forall off n, 0 <= off -> 0 <= n -> off + n <= 1048576 -> in_mapping b off n (base, size)) /\
        (size < 1048576 -> ~ in_mapping b 0 1 (base, size))
  | None => h_heap s = [] /\ h_fds s = []
  end.
Proof.
  intros He. cbn zeta. pattern r, tr. refine (wp_start _ _ _ _ _ He). clear. unfold init_fileio, new_binding, fileio_lpc, ask. cbn [bind wp].
  intros [p|] _; [|cbn; split; [easy|split; [split; reflexivity|split; reflexivity]]].
  cbn [bind wp app]. intros fd _. destruct (fd <? 0) eqn:E1.
  { cbn [bind wp app negb Z.eqb Z.compare]. intros [] _. cbn. unfold fd_got. rewrite E1. cbn. rewrite Z.eqb_refl. intuition. }
  cbn [bind wp app]. intros [size|] Hs.
  2:{ cbn [bind wp app negb Z.eqb Z.compare]. intros [] _ [] _. cbn. unfold fd_got. rewrite E1. cbn. rewrite !Z.eqb_refl. intuition. }
  cbn [bind wp app]. intros [|] _.
  2:{ cbn [bind wp app negb Z.eqb Z.compare]. intros [] _ [] _. cbn. unfold fd_got. rewrite E1. cbn. rewrite !Z.eqb_refl. intuition. }
  cbn [bind wp app negb]. intros [base|] _.
  2:{ cbn [bind wp app negb Z.eqb Z.compare]. intros [] _ [] _. cbn. unfold fd_got. rewrite E1. cbn. rewrite !Z.eqb_refl. intuition. }
  cbn [bind wp app negb Z.eqb Z.compare]. intros [] _ kfd _. destruct (kfd <? 0) eqn:E2.
  { cbn [bind wp app]. intros [] _. cbn -[Z.land w32]. unfold fd_got. rewrite E1, E2. cbn -[Z.land w32]. rewrite !Z.eqb_refl.
    intuition. }
  cbn [wp fb_ptr fb_core fb_kcs fb_map]. cbn [allowed] in Hs. unfold after.
  cbn [fold_left after1 proper proper1 existsb failed h_fds h_maps h_heap nothing app]. unfold fd_got. rewrite E1, E2.
  cbn [h_fds h_maps h_heap app drop negb orb]. rewrite ?Z.eqb_refl, ?E1, ?E2.
  split; [cbn; rewrite ?Z.eqb_refl; intuition|]. split; [split; intros H; discriminate H|].
  split; [reflexivity|]. split; [reflexivity|]. split; [reflexivity|]. split; [do 6 right; left; reflexivity|].
  exists base, size. split; [reflexivity|]. split; [exists fd; do 2 right; left; reflexivity|]. split.
  { do 3 (constructor; [exact I|]). constructor; [|repeat (constructor; [exact I|]); constructor]. cbn -[Z.land w32 Z.pow]. split; [reflexivity|split; [reflexivity|exact (top_addr size)]]. }
  unfold in_mapping, Prog.LPC_WIN_SIZE. cbn [fst snd fb_map]. split; [intros Hsz off n H1 H2 H3; lia|lia].
Qed.

(** Findings.  If only the open of the KCS device fails, NULL is returned and the mapping
    stays; and the binding, which came from the allocator of mctp_set_alloc_ops, is given to
    the C library's free, whatever that allocator is. *)
Theorem C73_fileio_leak path : exists tr p base size, exec (init_fileio path) tr None /\
  h_maps (after nothing tr) = [(base, size)] /\ In (Ev (CAlloc HMctp) (Some p)) tr /\ In (Ev (CFree HLibc p) tt) tr.
Proof.
  exists [Ev (CAlloc HMctp) (Some 1); Ev (COpen lpc_path) 3; Ev (CGetSize 3) (Some 1048576); Ev (CMapLpc 3 267386880 1048576) true;
          Ev (CMmap 3 1048576) (Some 4096); Ev (CClose 3) tt; Ev (COpen path) (-1); Ev (CFree HLibc 1) tt], 1, 4096, 1048576.
  split; [|split; [reflexivity|split; [left; reflexivity|do 7 right; left; reflexivity]]].
  unfold init_fileio, new_binding, fileio_lpc, ask. cbn [bind exec]. do 2 eexists. split; [reflexivity|]. split; [exact I|].
  cbn [bind exec]. do 2 eexists. split; [reflexivity|]. split; [exact I|]. cbn [Z.ltb Z.compare bind exec].
  do 2 eexists. split; [reflexivity|]. split; [cbn; lia|]. cbn [bind exec]. change (Z.land 268435455 (w32 (- (1048576)))) with 267386880.
  do 2 eexists. split; [reflexivity|]. split; [exact I|]. cbn [negb bind exec].
  do 2 eexists. split; [reflexivity|]. split; [exact I|]. cbn [negb bind exec].
  do 2 eexists. split; [reflexivity|]. split; [exact I|]. cbn [negb bind exec Z.eqb].
  do 2 eexists. split; [reflexivity|]. split; [exact I|]. cbn [Z.ltb Z.compare negb bind exec].
  do 2 eexists. split; [reflexivity|]. split; [exact I|]. cbn [exec]. split; reflexivity.
Qed.
(** mctp_astlpc_destroy shows the BMC gone and releases the binding; the descriptor and the
    mapping stay. *)
Theorem C73_destroy path tr b tr2 r : exec (init_fileio path) tr (Some b) -> exec (fileio_destroy b) tr2 r ->
  let s := after nothing (tr ++ tr2) in
  In (Ev (CSetStatus (fb_ptr b) 0) tt) tr2 /\ proper (after nothing tr) tr2 /\
  h_heap s = [] /\ h_fds s = [fb_kcs b] /\ exists m, h_maps s = [m].
Proof.
  intros H1 H2. destruct (C73_fileio _ _ _ H1) as (_ & _ & Hc & Hh & Hf & _ & base & size & Hm & _).
  unfold fileio_destroy in H2. rewrite Hc in H2. cbn [astlpc_init bd_priv a_bmc ask bind exec] in H2.
  destruct H2 as ([] & t & -> & _ & [] & t2 & -> & _ & -> & ->). cbn zeta. unfold after in *. rewrite fold_left_app.
  set (s := fold_left after1 tr nothing) in *. cbn [fold_left after1 h_heap h_fds h_maps proper proper1]. rewrite Hh, Hf, Hm. cbn [drop].
  rewrite Z.eqb_refl. repeat split; try (now left); eauto.
Qed.
(** A binding made by mctp_astlpc_init with operations of the caller works on the caller's mapping and
    has descriptor 0 (that of standard input), which is what mctp_astlpc_init_pollfd hands out. *)
Theorem C73_custom_fd bmc mtu map tr b : exec (init_custom bmc mtu map) tr (Some b) ->
  fb_map b = map /\ init_pollfd b = (0, false).
Proof.
  unfold init_custom, new_binding, ask. cbn [bind exec]. intros ([p|] & t & -> & _ & H); cbn in H; [|destruct H; discriminate].
  destruct H as (_ & [= ->]). split; reflexivity.
Qed.

(** ** C74: the daemon starts and leaves *)

(** The calls before run_daemon, its argument and result, and the calls after it. *)
Fixpoint around (g tr : list ev) : option (list ev * Z * Z * list ev) :=
  match tr with
  | [] => None
  | Ev c a :: t =>
      match c return answer c -> option (list ev * Z * Z * list ev) with
      | CRun sock => fun rc => Some (g, sock, rc, t)
      | _ => fun a' => around (g ++ [Ev c a]) t
      end a
  end.
(** The command line is one the daemon takes. *)
Definition args_ok (o : opts) : bool :=
  match o_kind o, o_params o with
  | Some KNull, [] => true
  | Some KSerial, [_] | Some KAstlpc, [_] => true
  | _, _ => false
  end.
(** The failures that do not keep the daemon from running: of mctp_register_bus, and of the
    open of a serial device. *)
Definition serious (o : opts) (e : ev) : bool :=
  failed e &&
  match e with
  | Ev (CRegister _ _) _ => false
  | Ev (COpen _) _ => match o_kind o with Some KSerial => false | _ => true end
  | _ => true
  end.
Definition dump_failed (e : ev) : bool := match e with Ev (CDumpOpen _ _) _ => failed e | _ => false end.
Definition n_captures (o : opts) : nat :=
  (match o_cap_binding o with Some _ => 1 | None => 0 end + match o_cap_socket o with Some _ => 1 | None => 0 end)%nat.
(** The bindings registered. *)
Definition regs (tr : list ev) : list Z := flat_map (fun e => match e with Ev (CRegister p _) _ => [p] | _ => [] end) tr.

(** Whatever the system answers: run_daemon is reached, once, unless the command line is wrong
    or a call failed (but see [serious]); the exit status is 0 exactly if it was reached and
    returned 0.  It is reached with a socket that listens (the one systemd passed, or a new
    one), with the capture files asked for open and the binding registered.  All capture files
    are closed in the end, and a registered astlpc binding is never left without showing the
    BMC gone, unregistering and releasing it.  No call is made on a thing that is not held. *)
Definition main_ok (o : opts) (rc : Z) (tr : list ev) : Prop :=
  let s := after nothing tr in
  proper nothing tr /\
  (around [] tr = None <-> args_ok o = false \/ existsb (serious o) tr = true) /\
  match around [] tr with
  | None => rc = 1
  | Some (before, sock, code, later) =>
      let s1 := after nothing before in
      tr = before ++ Ev (CRun sock) code :: later /\
      around [] later = None /\ rc = (if code =? 0 then 0 else 1) /\
      ((sock = 3 /\ exists n, 0 < n /\ In (Ev CListenFds n) before) \/
       (In sock (h_fds s1) /\ In (Ev (CListen sock) true) before)) /\
      length (h_dumps s1) = n_captures o /\
      (o_kind o <> Some KNull -> exists p code, h_busses s1 = [p] /\ h_heap s1 = [p] /\ In (Ev (CRegister p (o_eid o)) code) before)
  end /\
  h_dumps s = [] /\ (existsb dump_failed tr = false -> h_pcaps s = []) /\
  (o_kind o = Some KAstlpc -> h_busses s = [] /\ h_heap s = [] /\
     forall p, In p (regs tr) -> In (Ev (CSetStatus p 0) tt) tr).

Definition is_run (e : ev) : bool := match e with Ev (CRun _) _ => true | _ => false end.
Record G (o : opts) (s0 : held) (ser dmp : bool) (rg : list Z) (g : list ev) (h : held) : Prop := mkG {
  g_after : after s0 g = h;
  g_proper : proper s0 g;
  g_ser : existsb (serious o) g = ser;
  g_run : existsb is_run g = false;
  g_dmp : existsb dump_failed g = dmp;
  g_regs : regs g = rg }.
Lemma proper_app s g t : proper s (g ++ t) <-> proper s g /\ proper (after s g) t.
Proof.
  revert s. induction g as [|e g IH]; intros s; cbn [Datatypes.app proper after fold_left]; [tauto|]. specialize (IH (after1 s e)).
  unfold after in *. tauto.
Qed.
Lemma G_nil o s : G o s false false [] [] s.
Proof. constructor; reflexivity || exact I. Qed.
Lemma G_snoc o s0 ser dmp rg g h e : G o s0 ser dmp rg g h -> proper1 h e -> is_run e = false ->
  G o s0 (ser || serious o e) (dmp || dump_failed e) (rg ++ regs [e]) (g ++ [e]) (after1 h e).
Proof.
  intros [H1 H2 H3 H4 H5 H6] Hp Hr. constructor.
  - unfold after in *. rewrite fold_left_app, H1. reflexivity.
  - apply proper_app. split; [exact H2|]. rewrite H1. cbn. tauto.
  - rewrite existsb_app, H3. cbn. now rewrite orb_false_r.
  - rewrite existsb_app, H4. cbn. now rewrite Hr.
  - rewrite existsb_app, H5. cbn. now rewrite orb_false_r.
  - unfold regs in *. rewrite flat_map_app, H6. reflexivity.
Qed.
Lemma around_none g : forall x, existsb is_run g = false -> around x g = None.
Proof.
  induction g as [|[c a] g IH]; intros x H; cbn [around]; [reflexivity|]. cbn [existsb] in H. apply orb_false_iff in H as [H1 H2].
  destruct c; cbn in H1; try discriminate; apply IH, H2.
Qed.
Lemma around_some g sock code t : forall x, existsb is_run g = false -> around x (g ++ Ev (CRun sock) code :: t) = Some (x ++ g, sock, code, t).
Proof.
  induction g as [|[c a] g IH]; intros x H; cbn [Datatypes.app around]; [now rewrite app_nil_r|]. cbn [existsb] in H. apply orb_false_iff in H as [H1 H2].
  destruct c; cbn in H1; try discriminate; rewrite (IH _ H2), <- app_assoc; reflexivity.
Qed.

Definition caps (cb cs : option (Z * Z)) : list (Z * Z) :=
  match cb with Some c => [c] | None => [] end ++ match cs with Some c => [c] | None => [] end.
Definition with_caps (l : list (Z * Z)) (fds : list Z) (maps : list (Z * Z)) (hp bs : list Z) : held :=
  mkHeld fds maps hp (map fst l) (map snd l) bs.
Ltac sx := cbn [bind wp app negb Z.eqb Z.compare ask].
Lemma wp_shift {A} (p : prog A) : forall g Q, wp p [] (fun a t => Q a (g ++ t)) -> wp p g Q.
Proof.
  assert (forall g g1 Q, wp p g (fun a t => Q a (g1 ++ t)) -> wp p (g1 ++ g) Q) as H.
  { induction p as [a|c k IH]; intros g g1 Q H; cbn in *; [exact H|]. intros a Ha. rewrite <- app_assoc. apply IH, H, Ha. }
  intros g Q Hw. rewrite <- (app_nil_r g). now apply H.
Qed.
Lemma drop_two x y : drop y [x; y] = [x].
Proof. cbn. destruct (Z.eqb_spec y x) as [->|]; [reflexivity|]. now rewrite Z.eqb_refl. Qed.
Lemma drop_one y : drop y [y] = [].
Proof. cbn. now rewrite Z.eqb_refl. Qed.
Ltac st HG e := apply (fun a b c d f g h H H1 => G_snoc a b c d f g h e H H1 eq_refl) in HG;
  [|solve [cbn; auto using in_or_app with datatypes]];
  cbn [after1 h_fds h_maps h_heap h_pcaps h_dumps h_busses regs flat_map Datatypes.app serious failed dump_failed andb orb negb] in HG.
Lemma wp_prepare o path l g (Q : option (option (Z * Z)) -> list ev -> Prop) : G o nothing false false [] g (with_caps l [] [] [] []) ->
  (path = None -> Q (Some None) g) ->
  (forall c g', path <> None -> G o nothing false false [] g' (with_caps (l ++ [c]) [] [] [] []) -> Q (Some (Some c)) g') ->
  (forall g' dmp pcs, path <> None -> G o nothing true dmp [] g' (mkHeld [] [] [] (map fst l ++ pcs) (map snd l) []) ->
     (dmp = false -> pcs = []) -> Q None g') ->
  wp (prepare path) g Q.
Proof.
  intros HG H1 H2 H3. destruct path as [f|]; cbn [prepare]; [|now apply H1]. unfold capture_prepare. sx. intros [pc|] _; sx.
  - pose proof (G_snoc _ _ _ _ _ _ _ (Ev CPcapOpen (Some pc)) HG I eq_refl) as HG1. intros [d|] _; sx.
    + pose proof (G_snoc _ _ _ _ _ _ _ (Ev (CDumpOpen pc f) (Some d)) HG1) as HG2. apply H2; [discriminate|].
      unfold with_caps. rewrite !map_app. apply HG2; [|reflexivity]. cbn. apply in_or_app. right. now left.
    + pose proof (G_snoc _ _ _ _ _ _ _ (Ev (CDumpOpen pc f) None) HG1) as HG2. apply (H3 _ true [pc]); [discriminate| |discriminate].
      apply HG2; [|reflexivity]. cbn. apply in_or_app. right. now left.
  - pose proof (G_snoc _ _ _ _ _ _ _ (Ev CPcapOpen None) HG I eq_refl) as HG1. apply (H3 _ false []); [discriminate| |reflexivity].
    rewrite app_nil_r. exact HG1.
Qed.
Lemma wp_close o s0 ser dmp rg g c fds maps hp bs pcs dps (Q : unit -> list ev -> Prop) :
  G o s0 ser dmp rg g (mkHeld fds maps hp pcs dps bs) ->
  match c with Some (pc, d) => In pc pcs /\ In d dps | None => True end ->
  (forall g', G o s0 ser dmp rg g' (match c with Some (pc, d) => mkHeld fds maps hp (drop pc pcs) (drop d dps) bs | None => mkHeld fds maps hp pcs dps bs end) ->
     (exists t, g' = g ++ t) -> Q tt g') ->
  wp (capture_close c) g Q.
Proof.
  intros HG Hin HQ. destruct c as [[pc d]|]; cbn [capture_close].
  2:{ apply HQ; [exact HG|]. exists []. now rewrite app_nil_r. }
  sx. destruct Hin as [Hp Hd]. intros [] _ [] _. apply HQ.
  - pose proof (G_snoc _ _ _ _ _ _ _ (Ev (CDumpClose d) tt) HG Hd eq_refl) as HG1. cbn [after1 h_fds h_maps h_heap h_pcaps h_dumps h_busses] in HG1.
    pose proof (G_snoc _ _ _ _ _ _ _ (Ev (CPcapClose pc) tt) HG1 Hp eq_refl) as HG2. cbn [after1 h_fds h_maps h_heap h_pcaps h_dumps h_busses] in HG2.
    cbn [serious failed andb dump_failed regs flat_map Datatypes.app] in HG2. rewrite !orb_false_r, !app_nil_r in HG2. exact HG2.
  - eexists. now rewrite <- app_assoc.
Qed.
Lemma wp_cleanup o s0 ser dmp rg g fds maps hp bs cb cs rc (Q : Z -> list ev -> Prop) :
  G o s0 ser dmp rg g (with_caps (caps cb cs) fds maps hp bs) ->
  (forall g', G o s0 ser dmp rg g' (mkHeld fds maps hp [] [] bs) -> (exists t, g' = g ++ t) -> Q (if rc =? 0 then 0 else 1) g') ->
  wp (main_cleanup_socket cs cb rc) g Q.
Proof.
  intros HG HQ. unfold main_cleanup_socket. apply wp_bind. eapply wp_close; [exact HG|..].
  { unfold caps. destruct cs as [[p2 d2]|]; [|exact I]. rewrite !map_app. split; apply in_or_app; right; now left. }
  intros g' HG' (t & ->). apply wp_bind. destruct cb as [[p1 d1]|], cs as [[p2 d2]|]; cbn [caps Datatypes.app map fst snd] in HG'; rewrite ?drop_two, ?drop_one in HG';
    (eapply wp_close; [exact HG'| |intros g2 HG2 (t2 & ->)]);
    try (split; now left); try exact I; cbn [wp]; (apply HQ; [rewrite ?drop_one in HG2; exact HG2|eexists; now rewrite <- app_assoc]).
Qed.

(** What a binding that has been set up holds. *)
Definition bound_is (o : opts) (b : bound) (g : list ev) (hp bs rg : list Z) : Prop :=
  match b with
  | BNull => o_kind o = Some KNull /\ hp = [] /\ bs = [] /\ rg = []
  | BSerial x => o_kind o = Some KSerial /\ hp = [sb_ptr x] /\ bs = [sb_ptr x] /\ rg = [sb_ptr x] /\ exists c, In (Ev (CRegister (sb_ptr x) (o_eid o)) c) g
  | BAstlpc x => o_kind o = Some KAstlpc /\ hp = [fb_ptr x] /\ bs = [fb_ptr x] /\ rg = [fb_ptr x] /\ a_bmc (bd_priv (fb_core x)) = true /\
                 exists c, In (Ev (CRegister (fb_ptr x) (o_eid o)) c) g
  end.
(** C73 for a start in any state. *)
Lemma wp_fileio o path l g (Q : option fbinding -> list ev -> Prop) : o_kind o = Some KAstlpc ->
  G o nothing false false [] g (with_caps l [] [] [] []) ->
  (forall g' maps, G o nothing true false [] g' (with_caps l [] maps [] []) -> Q None g') ->
  (forall b g' m, G o nothing false false [] g' (with_caps l [fb_kcs b] [m] [fb_ptr b] []) -> a_bmc (bd_priv (fb_core b)) = true -> Q (Some b) g') ->
  wp (init_fileio path) g Q.
Proof.
  intros Ek HG HN HS.
  unfold init_fileio, new_binding, fileio_lpc. sx. unfold with_caps in HG.
  intros [p|] _; sx; [st HG (Ev (CAlloc HMctp) (Some p))|st HG (Ev (CAlloc HMctp) None); exact (HN _ _ HG)].
  intros fd _. st HG (Ev (COpen lpc_path) fd). unfold fd_got, serious in HG. cbn [failed] in HG. rewrite Ek in HG. destruct (fd <? 0) eqn:E1; sx.
  { intros [] _. st HG (Ev (CFree HLibc p) tt). rewrite drop_one in HG. exact (HN _ _ HG). }
  intros [size|] _; sx; [st HG (Ev (CGetSize fd) (Some size))|].
  2:{ intros [] _ [] _. st HG (Ev (CGetSize fd) None). st HG (Ev (CClose fd) tt). st HG (Ev (CFree HLibc p) tt). rewrite !drop_one in HG. exact (HN _ _ HG). }
  intros [|] _; sx.
  2:{ intros [] _ [] _. st HG (Ev (CMapLpc fd (Z.land 268435455 (w32 (- size))) size) false). st HG (Ev (CClose fd) tt). st HG (Ev (CFree HLibc p) tt). rewrite !drop_one in HG. exact (HN _ _ HG). }
  st HG (Ev (CMapLpc fd (Z.land 268435455 (w32 (- size))) size) true). intros [base|] _; sx.
  2:{ intros [] _. sx. intros [] _. st HG (Ev (CMmap fd size) None). st HG (Ev (CClose fd) tt). st HG (Ev (CFree HLibc p) tt). rewrite !drop_one in HG. exact (HN _ _ HG). }
  intros [] _. sx. intros kfd _. st HG (Ev (CMmap fd size) (Some base)). st HG (Ev (CClose fd) tt). st HG (Ev (COpen path) kfd).
  unfold fd_got, serious in HG. cbn [failed h_fds h_maps h_heap h_pcaps h_dumps h_busses] in HG. rewrite Ek, drop_one in HG. destruct (kfd <? 0) eqn:E2; sx.
  { intros [] _. st HG (Ev (CFree HLibc p) tt). rewrite !drop_one in HG. exact (HN _ _ HG). }
  eapply HS; [|reflexivity]. exact HG.
Qed.
Lemma G_more o s0 ser dmp rg g h : G o s0 ser dmp rg g h -> after s0 g = h. Proof. now intros []. Qed.
Lemma wp_binding o l g (Q : option bound -> list ev -> Prop) : G o nothing false false [] g (with_caps l [] [] [] []) ->
  (forall g' ser fds maps hp, args_ok o = false \/ ser = true -> (o_kind o = Some KAstlpc -> hp = []) ->
     G o nothing ser false [] g' (with_caps l fds maps hp []) -> Q None g') ->
  (forall b g' fds maps hp bs rg, args_ok o = true -> bound_is o b g' hp bs rg ->
     G o nothing false false rg g' (with_caps l fds maps hp bs) -> Q (Some b) g') ->
  wp (binding_init o) g Q.
Proof.
  intros HG HN HS. unfold binding_init. destruct (o_kind o) as [[| |]|] eqn:Ek.
  - destruct (o_params o) as [|x r] eqn:Ep; cbn [wp].
    + apply (HS BNull g [] [] [] [] []); [unfold args_ok; now rewrite Ek, Ep|now repeat split|exact HG].
    + apply (HN g false [] [] []); [left; unfold args_ok; now rewrite Ek, Ep|reflexivity|exact HG].
  - destruct (o_params o) as [|x [|y r]] eqn:Ep; cbn [wp];
      try (apply (HN g false [] [] []); [left; unfold args_ok; now rewrite Ek, Ep|reflexivity|exact HG]).
    unfold serial_init, serial_open_path. sx. intros [p|] _; sx; [|intros []]. intros fd _ rc _. st HG (Ev (CAlloc HMctp) (Some p)).
    st HG (Ev (COpen x) fd). unfold serious, fd_got in HG. rewrite Ek, andb_false_r in HG. cbn [h_fds h_maps h_heap h_pcaps h_dumps h_busses] in HG.
    assert (exists fds, G o nothing false false [] ((g ++ [Ev (CAlloc HMctp) (Some p)]) ++ [Ev (COpen x) fd]) (with_caps l fds [] [p] [])) as (fds & HG2).
    { destruct (fd <? 0); eexists; exact HG. }
    clear HG. unfold with_caps in HG2. st HG2 (Ev (CRegister p (o_eid o)) rc). unfold serious in HG2. rewrite andb_false_r in HG2.
    eapply HS; [unfold args_ok; now rewrite Ek, Ep| |exact HG2]. cbn. repeat split; try reflexivity; [exact Ek|]. exists rc. apply in_or_app. right. now left.
  - destruct (o_params o) as [|x [|y r]] eqn:Ep; cbn [wp];
      try (apply (HN g false [] [] []); [left; unfold args_ok; now rewrite Ek, Ep|reflexivity|exact HG]).
    apply wp_bind. eapply wp_fileio; [exact Ek|exact HG|..].
    + intros g' maps HG'. cbn [wp]. eapply HN; [now right|reflexivity|exact HG'].
    + intros b g' m HG' Hb. sx. intros rc _. unfold with_caps in HG'. st HG' (Ev (CRegister (fb_ptr b) (o_eid o)) rc).
      unfold serious in HG'. rewrite andb_false_r in HG'.
      eapply HS; [unfold args_ok; now rewrite Ek, Ep| |exact HG']. cbn. repeat split; try reflexivity; [exact Ek|exact Hb|]. exists rc. apply in_or_app. right. now left.
  - apply (HN g false [] [] []); [left; unfold args_ok; now rewrite Ek|discriminate|exact HG].
Qed.
Lemma wp_socket o l rg g fds maps hp bs (Q : option Z -> list ev -> Prop) : G o nothing false false rg g (with_caps l fds maps hp bs) ->
  (forall g' fds', (exists t, g' = g ++ t) -> G o nothing true false rg g' (with_caps l fds' maps hp bs) -> Q None g') ->
  (forall g' fds' fd, (exists t, g' = g ++ t) -> G o nothing false false rg g' (with_caps l fds' maps hp bs) -> In fd fds' -> In (Ev (CListen fd) true) g' -> Q (Some fd) g') ->
  wp socket_init g Q.
Proof.
  intros HG HN HS. unfold socket_init. sx. intros fd _. unfold with_caps in HG. st HG (Ev CSocket fd). unfold fd_got, serious in HG. cbn [failed] in HG.
  rewrite andb_true_r, ?app_nil_r in HG. destruct (fd <? 0) eqn:E; sx; [eapply HN; [now eexists|exact HG]|].
  cbn [h_fds h_maps h_heap h_pcaps h_dumps h_busses] in HG.
  assert (In fd (fds ++ [fd])) as Hin by (apply in_or_app; right; now left).
  intros [|] _; sx.
  2:{ intros [] _. st HG (Ev (CBind fd) false). st HG (Ev (CClose fd) tt). eapply HN; [eexists; now rewrite <- !app_assoc|rewrite ?app_nil_r in HG; exact HG]. }
  intros [|] _; sx; st HG (Ev (CBind fd) true).
  2:{ intros [] _. st HG (Ev (CListen fd) false). st HG (Ev (CClose fd) tt). eapply HN; [eexists; now rewrite <- !app_assoc|rewrite ?app_nil_r in HG; exact HG]. }
  st HG (Ev (CListen fd) true). eapply HS; [eexists; now rewrite <- !app_assoc|rewrite ?app_nil_r in HG; exact HG|exact Hin|apply in_or_app; right; now left].
Qed.
Lemma n_caps o cb cs : (o_cap_binding o = None <-> cb = None) -> (o_cap_socket o = None <-> cs = None) -> length (caps cb cs) = n_captures o.
Proof.
  intros H1 H2. unfold caps, n_captures. destruct (o_cap_binding o), cb, (o_cap_socket o), cs; try reflexivity;
    exfalso; intuition discriminate.
Qed.
(** Leaving without having run. *)
Lemma not_run o ser dmp rg g fds maps hp pcs : G o nothing ser dmp rg g (mkHeld fds maps hp pcs [] []) ->
  args_ok o = false \/ ser = true -> (dmp = false -> pcs = []) -> (o_kind o = Some KAstlpc -> hp = [] /\ forall p, In p rg -> In (Ev (CSetStatus p 0) tt) g) -> main_ok o 1 g.
Proof.
  intros [H1 H2 H3 H4 H5 H6] Hs Hd Hh. unfold main_ok. rewrite H1. cbn zeta. rewrite (around_none g [] H4).
  split; [exact H2|]. split; [split; [intros _; now rewrite H3|reflexivity]|]. split; [reflexivity|]. split; [reflexivity|].
  split; [now rewrite H5|]. intros Ek. destruct (Hh Ek) as [Ha Hb]. rewrite H6. repeat split; assumption.
Qed.
Lemma wp_leave o s0 ser dmp rg0 g b cb cs fds maps hp bs rg rc g0 (Q : Z -> list ev -> Prop) :
  bound_is o b g0 hp bs rg -> G o s0 ser dmp rg0 g (with_caps (caps cb cs) fds maps hp bs) ->
  (forall g' hp' bs', G o s0 ser dmp rg0 g' (mkHeld fds maps hp' [] [] bs') ->
     (o_kind o = Some KAstlpc -> hp' = [] /\ bs' = [] /\ forall p, In p rg -> In (Ev (CSetStatus p 0) tt) g') ->
     (o_kind o = Some KNull -> bs' = []) -> Q (if rc =? 0 then 0 else 1) g') ->
  wp (main_cleanup_binding b cs cb rc) g Q.
Proof.
  intros Hb HG HQ. unfold main_cleanup_binding. destruct b as [|x|x]; cbn [bound_is binding_destroy] in *.
  - destruct Hb as (Ek & -> & -> & ->). sx. eapply wp_cleanup; [exact HG|]. intros g' HG' _. eapply HQ; [exact HG'|rewrite Ek; discriminate|reflexivity].
  - destruct Hb as (Ek & -> & -> & -> & _). sx. eapply wp_cleanup; [exact HG|]. intros g' HG' _. eapply HQ; [exact HG'|rewrite Ek; discriminate|rewrite Ek; discriminate].
  - destruct Hb as (Ek & -> & -> & -> & Hbm & _). unfold fileio_destroy. rewrite Hbm. sx. intros [] _ [] _ [] _. unfold with_caps in HG.
    st HG (Ev (CUnregister (fb_ptr x)) tt). st HG (Ev (CSetStatus (fb_ptr x) 0) tt). st HG (Ev (CFree HMctp (fb_ptr x)) tt).
    rewrite !drop_one, ?orb_false_r, ?app_nil_r in HG.
    eapply wp_cleanup; [exact HG|]. intros g' HG' (t & ->). eapply HQ; [exact HG'| |rewrite Ek; discriminate].
    intros _. split; [reflexivity|]. split; [reflexivity|]. intros p [<-|[]]. apply in_or_app. left. apply in_or_app. left. apply in_or_app. right. now left.
Qed.
Lemma wp_ran o before h rg b cb cs fds maps hp bs sock code : h = with_caps (caps cb cs) fds maps hp bs -> G o nothing false false rg before h ->
  args_ok o = true -> bound_is o b before hp bs rg -> length (caps cb cs) = n_captures o ->
  ((sock = 3 /\ exists n, 0 < n /\ In (Ev CListenFds n) before) \/ (In sock fds /\ In (Ev (CListen sock) true) before)) ->
  wp (main_cleanup_binding b cs cb code) (before ++ [Ev (CRun sock) code]) (main_ok o).
Proof.
  intros -> HG Ha Hb Hn Hs. apply wp_shift. eapply wp_leave; [exact Hb|apply G_nil|]. intros later hp' bs' HL HA HN.
  destruct HG as [G1 G2 G3 G4 G5 G6]. destruct HL as [L1 L2 L3 L4 L5 L6]. rewrite <- app_assoc. cbn [Datatypes.app].
  assert (after nothing (before ++ Ev (CRun sock) code :: later) = mkHeld fds maps hp' [] [] bs') as HE.
  { unfold after in *. rewrite fold_left_app, G1. cbn [fold_left after1]. exact L1. }
  unfold main_ok. rewrite (around_some before sock code later [] G4), HE. cbn zeta. cbn [Datatypes.app h_dumps h_pcaps h_heap h_busses]. split.
  { apply proper_app. split; [exact G2|]. rewrite G1. cbn [proper]. split; [exact I|exact L2]. }
  split.
  { rewrite existsb_app, G3, Ha. cbn [existsb]. rewrite L3. split; [discriminate|intros [|]; discriminate]. }
  split.
  { split; [reflexivity|]. split; [apply around_none; exact L4|]. split; [reflexivity|]. rewrite G1. cbn [with_caps h_fds h_dumps h_busses h_heap].
    split; [exact Hs|]. split; [now rewrite map_length|]. intros Hk. destruct b as [|x|x]; cbn [bound_is] in Hb.
    - now destruct Hb.
    - destruct Hb as (_ & -> & -> & _ & c & Hc). now exists (sb_ptr x), c.
    - destruct Hb as (_ & -> & -> & _ & _ & c & Hc). now exists (fb_ptr x), c. }
  split; [reflexivity|]. split; [reflexivity|]. intros Ek. destruct (HA Ek) as (A1 & A2 & A3). split; [exact A2|]. split; [exact A1|].
  unfold regs in *. rewrite flat_map_app, G6. cbn [flat_map Datatypes.app]. rewrite L6, app_nil_r. intros p Hp.
  apply in_or_app. right. right. apply A3, Hp.
Qed.
Lemma in_grow o b g t hp bs rg : bound_is o b g hp bs rg -> bound_is o b (g ++ t) hp bs rg.
Proof.
  destruct b; cbn [bound_is]; [exact (fun x => x)|intros (A & B & C & D & c & E)|intros (A & B & C & D & D' & c & E)]; repeat split; auto; exists c; apply in_or_app; now left.
Qed.

Theorem C74_main o tr rc : exec (main o) tr rc -> main_ok o rc tr.
Proof.
  intros He. refine (wp_start _ (main_ok o) _ _ _ He). clear. unfold main. apply wp_bind.
  assert (forall g, G o nothing false false [] g nothing -> wp (
    let* cb := prepare (o_cap_binding o) in
    match cb with
    | None => Ret 1
    | Some cb =>
        let* cs := prepare (o_cap_socket o) in
        match cs with
        | None => capture_close cb ;; Ret 1
        | Some cs =>
            let* ob := binding_init o in
            match ob with
            | None => main_cleanup_socket cs cb 1
            | Some b =>
                let* n := ask CListenFds in
                if n <=? 0 then
                  let* os := socket_init in
                  match os with
                  | None => main_cleanup_binding b cs cb (-1)
                  | Some fd => let* rc := ask (CRun fd) in main_cleanup_binding b cs cb rc
                  end
                else let* rc := ask (CRun SD_LISTEN_FDS_START) in main_cleanup_binding b cs cb rc
            end
        end
    end) g (main_ok o)) as HM.
  2:{ destruct (o_cap_binding o) eqn:E1, (o_cap_socket o) eqn:E2; rewrite ?E1, ?E2 in *; cbn [ask wp];
        try (intros [|] _; cbn [negb];
             [apply HM; pose proof (G_snoc _ _ _ _ _ _ _ (Ev CPcapInit true) (G_nil o nothing) I eq_refl) as HG; exact HG
             |cbn [wp]; pose proof (G_snoc _ _ _ _ _ _ _ (Ev CPcapInit false) (G_nil o nothing) I eq_refl) as HG;
              eapply not_run; [exact HG|now right|reflexivity|intros _; split; [reflexivity|intros p []]]]).
      cbn [negb]. apply HM, G_nil. }
  intros g HG. apply wp_bind.
  assert (forall cb g, (o_cap_binding o = None <-> cb = None) -> G o nothing false false [] g (with_caps (caps cb None) [] [] [] []) -> wp (
        let* cs := prepare (o_cap_socket o) in
        match cs with
        | None => capture_close cb ;; Ret 1
        | Some cs =>
            let* ob := binding_init o in
            match ob with
            | None => main_cleanup_socket cs cb 1
            | Some b =>
                let* n := ask CListenFds in
                if n <=? 0 then
                  let* os := socket_init in
                  match os with
                  | None => main_cleanup_binding b cs cb (-1)
                  | Some fd => let* rc := ask (CRun fd) in main_cleanup_binding b cs cb rc
                  end
                else let* rc := ask (CRun SD_LISTEN_FDS_START) in main_cleanup_binding b cs cb rc
            end
        end) g (main_ok o)) as HM.
  2:{ eapply (wp_prepare o _ []); [exact HG|..].
      - intros E. apply HM; [tauto|exact HG].
      - intros c g' E HG'. apply HM; [split; [contradiction|discriminate]|exact HG'].
      - intros g' dmp pcs E HG' Hd. cbn [wp]. cbn [map Datatypes.app] in HG'. eapply not_run; [exact HG'|now right|exact Hd|intros _; split; [reflexivity|intros p []]]. }
  clear g HG. intros cb g Ecb HG. apply wp_bind.
  assert (forall cs g, (o_cap_socket o = None <-> cs = None) -> G o nothing false false [] g (with_caps (caps cb cs) [] [] [] []) -> wp (
            let* ob := binding_init o in
            match ob with
            | None => main_cleanup_socket cs cb 1
            | Some b =>
                let* n := ask CListenFds in
                if n <=? 0 then
                  let* os := socket_init in
                  match os with
                  | None => main_cleanup_binding b cs cb (-1)
                  | Some fd => let* rc := ask (CRun fd) in main_cleanup_binding b cs cb rc
                  end
                else let* rc := ask (CRun SD_LISTEN_FDS_START) in main_cleanup_binding b cs cb rc
            end) g (main_ok o)) as HM.
  2:{ assert (caps cb None = match cb with Some c => [c] | None => [] end) as Ec by (unfold caps; apply app_nil_r). rewrite Ec in HG.
      eapply wp_prepare; [exact HG|..].
      - intros E. apply HM; [tauto|]. rewrite Ec. exact HG.
      - intros c g' E HG'. apply HM; [split; [contradiction|discriminate]|exact HG'].
      - intros g' dmp pcs E HG' Hd. apply wp_bind. destruct cb as [[p1 d1]|]; cbn [map fst snd Datatypes.app] in HG'.
        + eapply wp_close; [exact HG'|split; now left|]. cbn [drop]. rewrite !Z.eqb_refl. intros g2 HG2 _. cbn [wp].
          eapply not_run; [exact HG2|now right|exact Hd|intros _; split; [reflexivity|intros p []]].
        + cbn [capture_close wp]. eapply not_run; [exact HG'|now right|exact Hd|intros _; split; [reflexivity|intros p []]]. }
  clear g HG. intros cs g Ecs HG. apply wp_bind. eapply wp_binding; [exact HG|..]; clear g HG.
  - intros g ser fds maps hp Hs Hh HG. eapply wp_cleanup; [exact HG|]. intros g' HG' _. cbn [Z.eqb].
    eapply not_run; [exact HG'|exact Hs|reflexivity|]. intros Ek. split; [exact (Hh Ek)|intros p []].
  - intros b g fds maps hp bs rg Ha Hb HG. cbn [ask bind wp]. intros n _. unfold with_caps in HG. st HG (Ev CListenFds n).
    rewrite app_nil_r in HG. pose proof (in_grow _ _ _ [Ev CListenFds n] _ _ _ Hb) as Hb1.
    destruct (Z.leb_spec n 0).
    + apply wp_bind. eapply wp_socket; [exact HG|..].
      * intros g' fds' (t & ->) HG'. eapply wp_leave; [exact (in_grow _ _ _ t _ _ _ Hb1)|exact HG'|]. intros g2 hp' bs' HG2 HA HB. cbn [Z.eqb].
        destruct HG2 as [A1 A2 A3 A4 A5 A6]. unfold main_ok. rewrite A1. cbn zeta. rewrite (around_none g2 [] A4).
        split; [exact A2|]. split; [split; [intros _; now right|reflexivity]|]. split; [reflexivity|]. split; [reflexivity|]. split; [reflexivity|].
        intros Ek. destruct (HA Ek) as (B1 & B2 & B3). rewrite A6. repeat split; assumption.
      * intros g' fds' fd (t & ->) HG' Hin Hl. cbn [ask bind wp]. intros code _.
        eapply wp_ran; [reflexivity|exact HG'|exact Ha|exact (in_grow _ _ _ t _ _ _ Hb1)|now apply n_caps|right; split; assumption].
    + cbn [ask bind wp]. intros code _. eapply wp_ran; [reflexivity|exact HG|exact Ha|exact Hb1|now apply n_caps|].
      left. split; [reflexivity|]. exists n. split; [assumption|]. apply in_or_app. right. now left.
Qed.

(** The exit status alone. *)
Theorem C74_status o tr rc : exec (main o) tr rc -> (rc = 0 \/ rc = 1) /\
  (rc = 0 <-> exists before sock later, around [] tr = Some (before, sock, 0, later)).
Proof.
  intros He. destruct (C74_main o tr rc He) as (_ & _ & H & _). destruct (around [] tr) as [[[[b s] c] l]|].
  - cbn zeta in H. destruct H as (_ & _ & Hr & _). destruct (c =? 0) eqn:E0; subst rc; split; try lia.
    + apply Z.eqb_eq in E0. subst c. split; [intros _; now exists b, s, l|reflexivity].
    + apply Z.eqb_neq in E0. split; [discriminate|]. intros (b' & s' & l' & E). injection E as _ _ E _. contradiction.
  - subst rc. split; [lia|]. split; [discriminate|intros (b & s & l & E); discriminate E].
Qed.

(** The only fault of the start: mctp_serial_init does not check its allocation. *)
Lemma faults_bind {A B} (p : prog A) (f : A -> prog B) : forall tr, faults (bind p f) tr ->
  faults p tr \/ exists t1 t2 a, exec p t1 a /\ tr = t1 ++ t2 /\ faults (f a) t2.
Proof.
  induction p as [a|c k IH]; intros tr H.
  - right. now exists [], tr, a.
  - assert ((c = CFault /\ tr = []) \/ exists a t, tr = Ev c a :: t /\ allowed c a /\ faults (bind (k a) f) t) as [[-> ->]|(a & t & -> & Ha & Hf)]
      by (destruct c; cbn in H; auto).
    + left. reflexivity.
    + destruct (IH a t Hf) as [H1|(t1 & t2 & x & H1 & -> & H2)].
      * left. destruct c; cbn; eauto.
      * right. exists (Ev c a :: t1), t2, x. split; [cbn; eauto|]. split; [reflexivity|exact H2].
Qed.
Definition nofault {A} (p : prog A) : Prop := forall tr, ~ faults p tr.
Lemma nofault_bind {A B} (p : prog A) (f : A -> prog B) : nofault p -> (forall a, nofault (f a)) -> nofault (bind p f).
Proof. intros H1 H2 tr H. destruct (faults_bind p f tr H) as [H3|(t1 & t2 & a & _ & _ & H3)]; [exact (H1 _ H3)|exact (H2 _ _ H3)]. Qed.
Lemma nofault_ret {A} (a : A) : nofault (Ret a). Proof. intros tr []. Qed.
Lemma nofault_ask c : c <> CFault -> nofault (ask c).
Proof. intros Hc tr H. destruct c; cbn in H; try (destruct H as (a & t & _ & _ & [])); congruence. Qed.
Ltac nf := repeat first
  [ apply nofault_ret | match goal with |- nofault (ask ?c) => apply (nofault_ask c); discriminate end
  | match goal with |- nofault (bind _ _) => apply nofault_bind; [|intros ?] end
  | match goal with
    | |- nofault (match ?x with _ => _ end) => destruct x
    | |- nofault (if ?x then _ else _) => destruct x
    end ].
Theorem C74_fault o tr : faults (main o) tr -> o_kind o = Some KSerial /\ In (Ev (CAlloc HMctp) None) tr.
Proof.
  intros H. unfold main, prepare, capture_prepare in H.
  assert (forall g, In (Ev (CAlloc HMctp) None) g -> forall g', In (Ev (CAlloc HMctp) None) (g' ++ g)) as Hi by (intros g Hg g'; apply in_or_app; now right).
  assert (nofault socket_init) as N1 by (unfold socket_init; nf).
  assert (forall c, nofault (capture_close c)) as N2 by (intros c; unfold capture_close; nf).
  assert (forall cs cb rc, nofault (main_cleanup_socket cs cb rc)) as N3 by (intros cs cb rc; unfold main_cleanup_socket; nf; apply N2).
  assert (forall b cs cb rc, nofault (main_cleanup_binding b cs cb rc)) as N4.
  { intros b cs cb rc. unfold main_cleanup_binding, binding_destroy, fileio_destroy. nf; first [apply N2|apply N3]. }
  apply faults_bind in H as [H|(t1 & tr1 & a & _ & -> & H)]; [exfalso; revert H; assert (forall p, nofault p -> ~ faults (A := bool) p tr) as X by (intros p Hp; apply Hp); apply X; nf|].
  destruct (negb a); [destruct H|].
  apply faults_bind in H as [H|(t2 & tr2 & cb & _ & -> & H)]; [exfalso; revert H; match goal with |- faults ?p _ -> False => assert (nofault p) as X by nf; exact (X _) end|].
  destruct cb as [cb|]; [|destruct H].
  apply faults_bind in H as [H|(t3 & tr3 & cs & _ & -> & H)]; [exfalso; revert H; match goal with |- faults ?p _ -> False => assert (nofault p) as X by nf; exact (X _) end|].
  destruct cs as [cs|]; [|exfalso; revert H; match goal with |- faults ?p _ -> False => assert (nofault p) as X by (nf; apply N2); exact (X _) end].
  apply faults_bind in H as [H|(t4 & tr4 & ob & _ & -> & H)].
  - unfold binding_init in H. destruct (o_kind o) as [[| |]|].
    + exfalso. revert H. match goal with |- faults ?p _ -> False => assert (nofault p) as X by nf; exact (X _) end.
    + split; [reflexivity|]. destruct (o_params o) as [|x [|y r]]; try contradiction.
      apply faults_bind in H as [H|(t5 & tr5 & b & _ & -> & H)].
      * cbn in H. destruct H as ([p|] & t & -> & _ & H); cbn in H; [destruct H|]. do 3 apply Hi. now left.
      * exfalso. revert H. match goal with |- faults ?p _ -> False => assert (nofault p) as X by (unfold serial_open_path; nf); exact (X _) end.
    + exfalso. revert H. match goal with |- faults ?p _ -> False => assert (nofault p) as X by (unfold init_fileio, new_binding, fileio_lpc; nf); exact (X _) end.
    + destruct H.
  - exfalso. revert H. match goal with |- faults ?p _ -> False => assert (nofault p) as X by (nf; first [apply N2|apply N3|apply N4|apply N1]); exact (X _) end.
Qed.

(** *** Findings *)
Ltac go := repeat (cbn [main_cleanup_binding main_cleanup_socket binding_destroy fileio_destroy capture_close socket_init capture_prepare
    o_eid sb_ptr fb_ptr fb_core a_bmc astlpc_init bd_priv o_cap_binding o_cap_socket o_kind o_params exec bind ask negb Z.ltb Z.leb Z.eqb Z.compare fst snd]; lazymatch goal with
  | |- exists a t, _ :: _ = Ev _ a :: t /\ _ => do 2 eexists; split; [reflexivity|]; split; [try exact I; cbn; try lia|]
  | |- _ /\ _ => split; reflexivity
  end).
Definition dev : list Z := [47; 100].
Definition ser_opts : opts := mkOpts 8 None None (Some KSerial) [dev].
Definition ast_opts : opts := mkOpts 8 None (Some dev) (Some KAstlpc) [dev].

(** The serial device cannot be opened, and the daemon runs all the same, with descriptor -1. *)
Definition unopened : list ev := [Ev (CAlloc HMctp) (Some 1); Ev (COpen dev) (-1); Ev (CRegister 1 8) 0; Ev CListenFds 1; Ev (CRun 3) 0].
Theorem C74_serial_unopened : exec (main ser_opts) unopened 0.
Proof. unfold main, ser_opts, unopened, prepare, binding_init, serial_init, serial_open_path, SD_LISTEN_FDS_START. go. Qed.

(** The registration of the astlpc binding fails (the BMC could not write its status), and
    the daemon runs all the same. *)
Definition unregistered : list ev :=
  [Ev CPcapInit true; Ev CPcapOpen (Some 11); Ev (CDumpOpen 11 dev) (Some 12);
   Ev (CAlloc HMctp) (Some 1); Ev (COpen lpc_path) 3; Ev (CGetSize 3) (Some 1048576); Ev (CMapLpc 3 267386880 1048576) true;
   Ev (CMmap 3 1048576) (Some 4096); Ev (CClose 3) tt; Ev (COpen dev) 4; Ev (CRegister 1 8) (-1); Ev CListenFds 0;
   Ev CSocket 5; Ev (CBind 5) true; Ev (CListen 5) true; Ev (CRun 5) 0;
   Ev (CUnregister 1) tt; Ev (CSetStatus 1 0) tt; Ev (CFree HMctp 1) tt; Ev (CDumpClose 12) tt; Ev (CPcapClose 11) tt].
Theorem C74_registration_ignored : exec (main ast_opts) unregistered 0.
Proof.
  unfold main, ast_opts, unregistered, prepare, binding_init, init_fileio, new_binding, fileio_lpc, socket_init. go.
Qed.
(** The case of [C74_main] and [C73_fileio] with everything in use: it is proper, run_daemon is
    reached and everything is given back except the descriptors and the mapping. *)
Example C74_case : main_ok ast_opts 0 unregistered /\ h_fds (after nothing unregistered) = [4; 5] /\
  h_maps (after nothing unregistered) = [(4096, 1048576)] /\ h_busses (after nothing unregistered) = [].
Proof. split; [exact (C74_main _ _ _ C74_registration_ignored)|]. repeat split. Qed.

(** If a capture file cannot be opened its pcap handle is not closed. *)
Theorem C74_pcap_leak : exists o tr, exec (main o) tr 1 /\ h_pcaps (after nothing tr) = [11].
Proof.
  exists (mkOpts 8 (Some dev) None (Some KNull) []), [Ev CPcapInit true; Ev CPcapOpen (Some 11); Ev (CDumpOpen 11 dev) None].
  split; [|reflexivity]. unfold main, prepare. go.
Qed.
