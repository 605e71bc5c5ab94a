(** PropFileio: C84, a binding made by mctp_astlpc_init_fileio touches only its own device and
    its own memory, whatever the host and the kernel do. *)
From Verif Require Import Base Lists Prog PktBuf Core WP Walk Trace Crc Astlpc SpecAst AstBasic PropAst Foot PropFoot Concrete Startup PropStartup Fileio.

(** ** From the process back to the model *)

(** All of the window is mapped. *)
Definition whole_window (b : fbinding) (maps : list (Z * Z)) : Prop :=
  fb_map b <> 0 /\ forall off n, in_window off n = true -> mapped maps (fb_map b + off) n = true.

Definition kreg_eqb (r s : kreg) : bool := match r, s with KData, KData | KStatus, KStatus => true | _, _ => false end.
Definition at_n {A} (n : nat) (x : A) (f : nat -> A) : nat -> A := fun m => if Nat.eqb m n then x else f m.
Lemma at_n_same A n (x : A) f : at_n n x f n = x.
Proof. unfold at_n. now rewrite Nat.eqb_refl. Qed.
Lemma at_n_later A n (x : A) f m : (S n <= m)%nat -> at_n n x f m = f m.
Proof. unfold at_n. intros H. destruct (Nat.eqb_spec m n); [lia|reflexivity]. Qed.

Definition with_kread (e : env) n r v : env :=
  mkEnv (e_alloc e) (fun m s => if Nat.eqb m n && kreg_eqb r s then v else e_kread e m s) (e_kwrite e) (e_mem e) (e_swrite e).
Definition with_kwrite (e : env) n v : env := mkEnv (e_alloc e) (e_kread e) (at_n n v (e_kwrite e)) (e_mem e) (e_swrite e).
Definition with_mem (e : env) n v : env := mkEnv (e_alloc e) (e_kread e) (e_kwrite e) (at_n n v (e_mem e)) (e_swrite e).
Definition with_swrite (e : env) n v : env := mkEnv (e_alloc e) (e_kread e) (e_kwrite e) (e_mem e) (at_n n v (e_swrite e)).
Definition with_alloc (e : env) n v : env := mkEnv (at_n n v (e_alloc e)) (e_kread e) (e_kwrite e) (e_mem e) (e_swrite e).

Lemma run_same {A} (p : Prog.prog A) e e' n tr :
  (forall m, (n <= m)%nat -> e_alloc e m = e_alloc e' m /\ (forall r, e_kread e m r = e_kread e' m r) /\ e_kwrite e m = e_kwrite e' m /\
     e_mem e m = e_mem e' m /\ e_swrite e m = e_swrite e' m) ->
  run e n tr p = run e' n tr p.
Proof.
  revert e e' n tr.
  induction p as [x|f|r k IH|r v k IH|o len k IH|o bs k IH|bs k IH|k IH|ev k IH]; cbn [run]; intros e e' n tr H; try reflexivity.
  7: apply IH; exact H.
  all: destruct (H n (le_n n)) as (E1 & E2 & E3 & E4 & E5);
    assert (forall m, (S n <= m)%nat -> e_alloc e m = e_alloc e' m /\ (forall r, e_kread e m r = e_kread e' m r) /\ e_kwrite e m = e_kwrite e' m /\
       e_mem e m = e_mem e' m /\ e_swrite e m = e_swrite e' m) as H' by (intros m Hm; apply H; lia);
    rewrite ?E1, ?E2, ?E3, ?E4, ?E5; try (apply IH; exact H').
  - destruct (in_window o len); [apply IH; exact H'|reflexivity].
  - destruct (in_window o (zlen bs)); [apply IH; exact H'|reflexivity].
Qed.

Lemma mem_back off bs : Forall is_byte bs -> mem_bytes (fun x => nth (Z.to_nat (x - off)) bs 0) off (zlen bs) = bs.
Proof.
  intros Hb. unfold mem_bytes, zlen. rewrite Nat2Z.id.
  apply nth_ext with (d := 0) (d' := 0); rewrite map_length, seq_length; [reflexivity|]. intros i Hi.
  set (f := fun i => nth (Z.to_nat (off + Z.of_nat i - off)) bs 0 mod 256).
  rewrite (nth_indep _ 0 (f 0%nat)) by (rewrite map_length, seq_length; exact Hi).
  rewrite map_nth, seq_nth by exact Hi. unfold f. cbn [Nat.add]. replace (off + Z.of_nat i - off) with (Z.of_nat i) by lia. rewrite Nat2Z.id.
  apply Z.mod_small. rewrite Forall_forall in Hb. exact (Hb _ (nth_In _ _ Hi)).
Qed.

Section Back.
Context (a : assm) (b : fbinding) (maps : list (Z * Z)) (Hwin : whole_window b maps).
Context (e0 : env) (He0 : env_ok a e0).

Lemma may_copy off n : in_window off n = true -> lpc_copy b maps off n = inr tt.
Proof.
  intros H. destruct Hwin as [H1 H2]. unfold lpc_copy. rewrite (H2 _ _ H). unfold in_window in H.
  replace (off <? 0) with false by lia. replace (fb_map b =? 0) with false by lia. reflexivity.
Qed.
Lemma read_one g tr v : exec (fileio_kcs_read b g) tr v ->
  tr = [Ev (CPread (fb_kcs b) (kcs_offset g)) v] /\ forall x, v = Some x -> is_byte x.
Proof.
  unfold fileio_kcs_read, ask. cbn [exec]. intros (x & t & -> & Hx & -> & ->). split; [reflexivity|]. intros y ->. exact Hx.
Qed.
Lemma write_one g x tr v : exec (fileio_kcs_write b g x) tr v -> tr = [Ev (CPwrite (fb_kcs b) (kcs_offset g) x) v].
Proof. unfold fileio_kcs_write, ask. cbn [exec]. intros (y & t & -> & _ & -> & ->). reflexivity. Qed.

(** What happens on files happens in some environment, as long as that run has no fault. *)
Lemma back A (p : Prog.prog A) : forall t r n tr, on_files a b maps p t r ->
  exists e, env_ok a e /\
    match run e n tr p with
    | Done x _ tr' => r = Came x /\ tr' = tr ++ map (event_of b) t
    | Fault _ _ => True
    end.
Proof.
  induction p as [x|f|g k IH|g v k IH|o len k IH|o bs k IH|bs k IH|k IH|ev k IH]; intros t r n tr H; cbn [on_files run] in *.
  - exists e0. destruct H as [-> ->]. rewrite app_nil_r. auto.
  - exists e0. auto.
  - destruct H as (str & v & t' & Hs & -> & Hk & Hv & Ht). destruct (read_one _ _ _ Hs) as [-> Hby].
    destruct (IH v t' r (S n) (tr ++ [EvKRead g v]) Ht) as (e & (O1 & O2 & O3 & O4) & Hr).
    exists (with_kread e n g v). split.
    { split; [exact O1|]. split; [|split; [|exact O4]].
      - intros E m s. cbn [with_kread e_kread e_kwrite]. split; [|apply (O2 E m s)].
        destruct (Nat.eqb m n && kreg_eqb g s); [exact (Hk E)|apply (O2 E m s)].
      - intros m s x. cbn [with_kread e_kread]. destruct (Nat.eqb m n && kreg_eqb g s) eqn:Eb; [|apply O3].
        apply andb_prop in Eb. destruct Eb as [_ Eb]. assert (g = s) as <- by (destruct g, s; cbn in Eb; congruence).
        destruct v as [y|]; [|discriminate]. cbn [kread_val]. rewrite Z.mod_small by (apply Hby; reflexivity). apply Hv. }
    assert (kread_val (e_kread (with_kread e n g v) n g) = v) as ->.
    { cbn [with_kread e_kread]. rewrite Nat.eqb_refl. replace (kreg_eqb g g) with true by (destruct g; reflexivity). cbn [andb].
      destruct v as [y|]; [|reflexivity]. cbn [kread_val]. rewrite Z.mod_small by (apply Hby; reflexivity). reflexivity. }
    rewrite (run_same _ (with_kread e n g v) e).
    2:{ intros m Hm. cbn [with_kread e_alloc e_kread e_kwrite e_mem e_swrite]. repeat split. intros s.
        destruct (Nat.eqb_spec m n); [lia|reflexivity]. }
    destruct (run e (S n) _ (k v)); [|exact I]. destruct Hr as [-> ->]. split; [reflexivity|]. rewrite <- app_assoc.
    cbn [map app event_of]. destruct g; reflexivity.
  - destruct H as (str & ok & t' & Hs & -> & Hk & Ht). rewrite (write_one _ _ _ _ Hs) in *.
    destruct (IH ok t' r (S n) (tr ++ [EvKWrite g v ok]) Ht) as (e & (O1 & O2 & O3 & O4) & Hr).
    exists (with_kwrite e n ok). split.
    { split; [exact O1|]. split; [|split; [exact O3|exact O4]]. intros E m s. cbn [with_kwrite e_kread e_kwrite]. split; [apply (O2 E m s)|].
      unfold at_n. destruct (Nat.eqb m n); [exact (Hk E)|apply (O2 E m s)]. }
    cbn [with_kwrite e_kwrite]. rewrite at_n_same.
    rewrite (run_same _ (with_kwrite e n ok) e).
    2:{ intros m Hm. cbn [with_kwrite e_alloc e_kread e_kwrite e_mem e_swrite]. rewrite at_n_later by exact Hm. repeat split. }
    destruct (run e (S n) _ (k ok)); [|exact I]. destruct Hr as [-> ->]. split; [reflexivity|]. rewrite <- app_assoc.
    cbn [map app event_of]. destruct g; reflexivity.
  - destruct (in_window o len) eqn:Ew; [|exists e0; auto]. rewrite (may_copy _ _ Ew) in H.
    destruct H as (bs & t' & Hz & Hby & -> & Ht).
    destruct (IH bs t' r (S n) (tr ++ [EvLRead o bs]) Ht) as (e & (O1 & O2 & O3 & O4) & Hr).
    exists (with_mem e n (fun x => nth (Z.to_nat (x - o)) bs 0)). split; [split; [exact O1|split; [exact O2|split; [exact O3|exact O4]]]|].
    cbn [with_mem e_mem]. rewrite at_n_same. subst len. rewrite mem_back by exact Hby.
    rewrite (run_same _ (with_mem e n _) e).
    2:{ intros m Hm. cbn [with_mem e_alloc e_kread e_kwrite e_mem e_swrite]. rewrite at_n_later by exact Hm. repeat split. }
    destruct (run e (S n) _ (k bs)); [|exact I]. destruct Hr as [-> ->]. split; [reflexivity|]. rewrite <- app_assoc.
    cbn [map app event_of]. replace (fb_map b + o - fb_map b) with o by lia. reflexivity.
  - destruct (in_window o (zlen bs)) eqn:Ew; [|exists e0; auto]. rewrite (may_copy _ _ Ew) in H.
    destruct H as (t' & -> & Ht). destruct (IH t' r (S n) (tr ++ [EvLWrite o bs]) Ht) as (e & He & Hr).
    exists e. split; [exact He|]. destruct (run e (S n) _ k); [|exact I]. destruct Hr as [-> ->]. split; [reflexivity|]. rewrite <- app_assoc.
    cbn [map app event_of]. replace (fb_map b + o - fb_map b) with o by lia. reflexivity.
  - destruct H as (q & t' & Hs & -> & Ht).
    destruct (IH _ t' r (S n) (tr ++ [EvSWrite bs (Z.min q (zlen bs))]) Ht) as (e & (O1 & O2 & O3 & O4) & Hr).
    exists (with_swrite e n q). split.
    { split; [exact O1|split; [exact O2|split; [exact O3|]]]. intros E m. cbn [with_swrite e_swrite]. unfold at_n.
      destruct (Nat.eqb m n); auto. }
    cbn [with_swrite e_swrite]. rewrite at_n_same.
    rewrite (run_same _ (with_swrite e n q) e).
    2:{ intros m Hm. cbn [with_swrite e_alloc e_kread e_kwrite e_mem e_swrite]. rewrite at_n_later by exact Hm. repeat split. }
    destruct (run e (S n) _ (k _)); [|exact I]. destruct Hr as [-> ->]. split; [reflexivity|]. now rewrite <- app_assoc.
  - destruct H as (ok & Ho & Ht). destruct (IH ok t r (S n) tr Ht) as (e & (O1 & O2 & O3 & O4) & Hr).
    exists (with_alloc e n ok). split.
    { split; [|split; [exact O2|split; [exact O3|exact O4]]]. intros E m. cbn [with_alloc e_alloc]. unfold at_n. destruct (Nat.eqb m n); auto. }
    cbn [with_alloc e_alloc]. rewrite at_n_same.
    rewrite (run_same _ (with_alloc e n ok) e); [exact Hr|]. intros m Hm. cbn [with_alloc e_alloc e_kread e_kwrite e_mem e_swrite].
    rewrite at_n_later by exact Hm. repeat split.
  - destruct H as (t' & -> & Ht). destruct (IH t' r n (tr ++ [ev]) Ht) as (e & He & Hr). exists e. split; [exact He|].
    destruct (run e n _ k); [|exact I]. destruct Hr as [-> ->]. split; [reflexivity|]. now rewrite <- app_assoc.
Qed.

(** And what happens in an environment happens on files. *)
Lemma forth A (p : Prog.prog A) : forall e n tr x m tr', env_ok a e -> run e n tr p = Done x m tr' ->
  exists t, on_files a b maps p t (Came x) /\ tr' = tr ++ map (event_of b) t.
Proof.
  induction p as [y|f|g k IH|g v k IH|o len k IH|o bs k IH|bs k IH|k IH|ev k IH]; intros e n tr x m tr' He H; cbn [on_files run] in *.
  - exists []. injection H as <- <- <-. rewrite app_nil_r. auto.
  - discriminate.
  - destruct (IH _ _ _ _ _ _ _ He H) as (t & Ht & ->). set (v := kread_val (e_kread e n g)) in *.
    exists (Sys (Ev (CPread (fb_kcs b) (kcs_offset g)) v) :: t). split.
    + exists [Ev (CPread (fb_kcs b) (kcs_offset g)) v], v, t. split; [|split; [reflexivity|split; [|split; [|exact Ht]]]].
      * unfold fileio_kcs_read, ask. cbn [exec]. exists v, []. split; [reflexivity|]. split; [|split; reflexivity].
        subst v. cbn. destruct (e_kread e n g); cbn; [apply Z.mod_pos_bound; lia|exact I].
      * intros E. destruct He as (_ & H2 & _). destruct (H2 E n g) as [H3 _]. subst v. destruct (e_kread e n g); [discriminate|congruence].
      * intros y E. destruct He as (_ & _ & H3 & _). exact (H3 n g y E).
    + rewrite <- app_assoc. cbn [map app event_of]. destruct g; reflexivity.
  - destruct (IH _ _ _ _ _ _ _ He H) as (t & Ht & ->). set (ok := e_kwrite e n) in *.
    exists (Sys (Ev (CPwrite (fb_kcs b) (kcs_offset g) v) ok) :: t). split.
    + exists [Ev (CPwrite (fb_kcs b) (kcs_offset g) v) ok], ok, t. split; [|split; [reflexivity|split; [|exact Ht]]].
      * unfold fileio_kcs_write, ask. cbn [exec]. exists ok, []. repeat split.
      * intros E. destruct He as (_ & H2 & _). exact (proj2 (H2 E n g)).
    + rewrite <- app_assoc. cbn [map app event_of]. destruct g; reflexivity.
  - destruct (in_window o len) eqn:Ew; [|discriminate]. rewrite (may_copy _ _ Ew). destruct (IH _ _ _ _ _ _ _ He H) as (t & Ht & ->).
    destruct (mem_bytes_ok (e_mem e n) o len) as [Z1 Z2]; [unfold in_window in Ew; lia|].
    eexists (Load (fb_map b + o) _ :: t). split; [do 2 eexists; split; [exact Z1|]; split; [exact Z2|]; split; [reflexivity|exact Ht]|].
    rewrite <- app_assoc. cbn [map app event_of]. replace (fb_map b + o - fb_map b) with o by lia. reflexivity.
  - destruct (in_window o (zlen bs)) eqn:Ew; [|discriminate]. rewrite (may_copy _ _ Ew). destruct (IH _ _ _ _ _ _ He H) as (t & Ht & ->).
    exists (Store (fb_map b + o) bs :: t). split; [eauto|]. rewrite <- app_assoc. cbn [map app event_of].
    replace (fb_map b + o - fb_map b) with o by lia. reflexivity.
  - destruct (IH _ _ _ _ _ _ _ He H) as (t & Ht & ->). eexists (Wrote bs _ :: t). split.
    + exists (e_swrite e n), t. split; [|split; [reflexivity|exact Ht]]. intros E. destruct He as (_ & _ & _ & H4). exact (H4 E n).
    + now rewrite <- app_assoc.
  - destruct (IH _ _ _ _ _ _ _ He H) as (t & Ht & ->). exists t. split; [|reflexivity]. exists (e_alloc e n). split; [|exact Ht].
    intros E. destruct He as (H1 & _). exact (H1 E n).
  - destruct (IH _ _ _ _ _ _ He H) as (t & Ht & ->). exists (Seen ev :: t). split; [eauto|]. now rewrite <- app_assoc.
Qed.
End Back.

(** ** C84 *)

(** Whatever is proved of code for every peer holds of it on files, if all of the window is
    mapped: it returns, and what it did, read as accesses to registers and window, satisfies
    what was proved. *)
Theorem C84_transfer a A (p : Prog.prog A) Q b maps : always a p Q -> (exists e, env_ok a e) -> whole_window b maps ->
  forall t r, on_files a b maps p t r -> exists x, r = Came x /\ Q x (map (event_of b) t).
Proof.
  intros Ha (e0 & He0) Hwin t r H. destruct (back a b maps Hwin e0 He0 A p t r 0%nat [] H) as (e & He & Hr).
  specialize (Ha e He). destruct (run e 0 [] p) as [x n tr|f tr]; [|contradiction]. destruct Hr as [-> ->]. eauto.
Qed.
(** And whatever code can do, it can do on files. *)
Theorem C84_complete a A (p : Prog.prog A) Q b maps : can_finish a p Q -> whole_window b maps ->
  exists t x, on_files a b maps p t (Came x) /\ Q x (map (event_of b) t).
Proof.
  intros (e & x & n & tr & He & Hr & Hq) Hwin. destruct (forth a b maps Hwin A p e 0%nat [] x n tr He Hr) as (t & Ht & ->). eauto.
Qed.

(** The system calls made are those of the two register functions. *)
Definition on_kcs (b : fbinding) (i : io) : Prop :=
  match i with
  | Sys (Ev c _) => match c with
                    | CPread fd off | CPwrite fd off _ => fd = fb_kcs b /\ (off = 0 \/ off = 1)
                    | _ => False
                    end
  | _ => True
  end.
Lemma kcs_offsets g : kcs_offset g = 0 \/ kcs_offset g = 1.
Proof. destruct g; auto. Qed.
Lemma on_shape a b maps A (p : Prog.prog A) : forall t r, on_files a b maps p t r -> Forall (on_kcs b) t.
Proof.
  induction p as [y|f|g k IH|g v k IH|o len k IH|o bs k IH|bs k IH|k IH|ev k IH]; intros t r H; cbn [on_files] in H.
  1-2: destruct H as [-> _]; constructor.
  - destruct H as (str & v & t' & Hs & -> & _ & _ & Ht). destruct (read_one _ _ _ _ Hs) as [-> _].
    constructor; [|eauto]. split; [reflexivity|apply kcs_offsets].
  - destruct H as (str & ok & t' & Hs & -> & _ & Ht). rewrite (write_one _ _ _ _ _ Hs).
    constructor; [|eauto]. split; [reflexivity|apply kcs_offsets].
  - destruct (lpc_copy b maps o len); [destruct H as [-> _]; constructor|]. destruct H as (bs & t' & _ & _ & -> & Ht).
    constructor; [exact I|eauto].
  - destruct (lpc_copy b maps o (zlen bs)); [destruct H as [-> _]; constructor|]. destruct H as (t' & -> & Ht).
    constructor; [exact I|eauto].
  - destruct H as (q & t' & _ & -> & Ht). constructor; [exact I|eauto].
  - destruct H as (ok & _ & Ht). eauto.
  - destruct H as (t' & -> & Ht). constructor; [exact I|eauto].
Qed.

(** What the binding made by the calls [tr] of mctp_astlpc_init_fileio on [path] may do: read
    and write single bytes at offsets 0 and 1 of the file [path] (writing commands at 0 and
    status words at 1), load from the header or the host's area and store to the header or its
    own area of the last MiB of the memory it has mapped. *)
Definition own (path : list Z) (tr : list ev) (i : io) : Prop :=
  match i with
  | Sys (Ev c _) =>
      match c with
      | CPread fd off => In (Ev (COpen path) fd) tr /\ (off = 0 \/ off = 1)
      | CPwrite fd off v => In (Ev (COpen path) fd) tr /\
          ((off = 0 /\ (v = 1 \/ v = 2 \/ v = 255)) \/ (off = 1 /\ (v = 128 \/ v = 129 \/ v = 193)))
      | _ => False
      end
  | Load addr bs => exists fd base size, In (Ev (CMmap fd size) (Some base)) tr /\
      let top := base + size in
      (top - 1048576 <= addr /\ addr + zlen bs <= top - 1048576 + 32) \/
      (top - 1048576 + 524412 <= addr /\ addr + zlen bs <= top)
  | Store addr bs => exists fd base size, In (Ev (CMmap fd size) (Some base)) tr /\
      let top := base + size in
      top - 1048576 <= addr /\ addr + zlen bs <= top - 1048576 + 524412
  | Wrote _ _ => False
  | Seen _ => True
  end.

(** What mctp_astlpc_init_fileio did to return a binding. *)
Lemma fileio_calls path tr b : exec (init_fileio path) tr (Some b) ->
  exists fd size base, tr = [Ev (CAlloc HMctp) (Some (fb_ptr b)); Ev (COpen lpc_path) fd; Ev (CGetSize fd) (Some size);
      Ev (CMapLpc fd (Z.land 268435455 (w32 (- size))) size) true; Ev (CMmap fd size) (Some base); Ev (CClose fd) tt; Ev (COpen path) (fb_kcs b)] /\
    fb_map b = base + size - 1048576 /\ fb_core b = astlpc_init true 0 /\ h_maps (after nothing tr) = [(base, size)].
Proof.
  intros H. destruct (C73_fileio _ _ _ H) as (_ & _ & Hc & _ & _ & _ & base0 & size0 & Hm & _).
  unfold init_fileio, new_binding, fileio_lpc, ask in H. cbn [bind exec] in H.
  destruct H as ([p|] & t & -> & _ & H); [|destruct H as [_ H]; discriminate]. cbn [bind exec] in H.
  destruct H as (fd & t1 & -> & _ & H). destruct (fd <? 0) eqn:E1.
  { cbn [bind exec negb Z.eqb] in H. destruct H as (? & ? & _ & _ & _ & H). discriminate. }
  cbn [bind exec] in H. destruct H as ([size|] & t2 & -> & _ & H).
  2:{ cbn [bind exec negb Z.eqb] in H. destruct H as (? & ? & _ & _ & ? & ? & _ & _ & _ & H). discriminate. }
  cbn [bind exec] in H. destruct H as ([|] & t3 & -> & _ & H).
  2:{ cbn [bind exec negb Z.eqb] in H. destruct H as (? & ? & _ & _ & ? & ? & _ & _ & _ & H). discriminate. }
  cbn [bind exec negb] in H. destruct H as ([base|] & t4 & -> & _ & H).
  2:{ cbn [bind exec negb Z.eqb] in H. destruct H as (? & ? & _ & _ & ? & ? & _ & _ & _ & H). discriminate. }
  cbn [bind exec negb Z.eqb] in H. destruct H as ([] & t5 & -> & _ & kfd & t6 & -> & _ & H).
  destruct (kfd <? 0) eqn:E2.
  { cbn [bind exec] in H. destruct H as (? & ? & _ & _ & _ & H). discriminate. }
  cbn [exec] in H. destruct H as [-> [= ->]]. cbn [fb_ptr fb_kcs fb_map fb_core] in *.
  exists fd, size, base. split; [reflexivity|]. split; [reflexivity|]. split; [reflexivity|].
  cbn -[Z.land w32]. unfold fd_got. rewrite E1, E2. reflexivity.
Qed.

Lemma files_is_ast app b eid l : fb_core b = astlpc_init true 0 -> files_history app b eid l = ast_history app true 0 eid l.
Proof. intros E. unfold files_history, files_world, ast_history, ast_register, astlpc_world. rewrite E. reflexivity. Qed.
Lemma traffic_keeps l : Forall ast_traffic l -> Forall keeps l.
Proof. apply Forall_impl. intros [[]|]; cbn; tauto. Qed.
Lemma foot_history app eid l : Forall ast_traffic l ->
  foot (mkAns any_kval (fun _ _ => True)) (bok 0) (ast_history app true 0 eid l) [] (fun w g => W (bK 0) g w).
Proof.
  intros Hl. apply traffic_keeps in Hl. unfold ast_history, ast_register.
  eapply foot_call; [apply bmc_call; [lia|exact I|apply bmc_blank]|]. intros w t Hw.
  destruct (bd_bus (bnd w false)); [|exact Hw]. revert Hw. generalize ([] ++ t). revert w. clear t.
  induction Hl as [|o l Ho Hl IH]; intros w g Hw; cbn [aexec]; [exact Hw|].
  eapply foot_call; [apply bmc_call; [lia|exact Ho|exact Hw]|]. intros w' t Hw'. now apply IH.
Qed.
Lemma nothing_fails : env_ok no_oom (mkEnv (fun _ => true) (fun _ _ => None) (fun _ => true) (fun _ _ => 0) (fun _ => 1)).
Proof. repeat split; try discriminate. Qed.
Lemma window_there path tr b fd size base : exec (init_fileio path) tr (Some b) -> In (Ev (CMmap fd size) (Some base)) tr ->
  0 < base -> 1048576 <= size -> whole_window b (h_maps (after nothing tr)).
Proof.
  intros H Hin Hb Hs. destruct (fileio_calls _ _ _ H) as (fd' & size' & base' & -> & Hmap & _ & ->).
  assert (size' = size /\ base' = base) as [-> ->].
  { set (get := fun x => match x with
       | Ev c y => match c return answer c -> Z * Z with CMmap _ n => fun y => (n, match y with Some z => z | None => 0 end) | _ => fun _ => (0, 0) end y
       end).
    cbn [In] in Hin. repeat destruct Hin as [Hin|Hin]; try discriminate Hin; try contradiction.
    apply (f_equal get) in Hin. cbn in Hin. injection Hin as -> ->. auto. }
  split; [lia|]. intros off n Hw. unfold in_window, LPC_WIN_SIZE in Hw. unfold mapped. cbn [existsb fst snd]. lia.
Qed.

(** On a binding that mctp_astlpc_init_fileio returned, with a mapping of at least 1 MiB:
    whatever the calls made, the host and the kernel do, no call leaves the mapped memory
    or is undefined otherwise, and all that happens is [own]. *)
Theorem C84_files path tr b fd size base app eid l t r :
  exec (init_fileio path) tr (Some b) -> In (Ev (CMmap fd size) (Some base)) tr -> 0 < base -> 1048576 <= size ->
  Forall ast_traffic l -> on_files no_oom b (h_maps (after nothing tr)) (files_history app b eid l) t r ->
  (exists w, r = Came w) /\ Forall (own path tr) t.
Proof.
  intros H Hin Hb Hs Hl Ht. pose proof (window_there _ _ _ _ _ _ H Hin Hb Hs) as Hwin.
  pose proof (on_shape _ _ _ _ _ _ _ Ht) as Hsh.
  destruct (fileio_calls _ _ _ H) as (fd' & size' & base' & Etr & Hmap & Hc & Hm).
  rewrite (files_is_ast _ _ _ _ Hc) in Ht.
  destruct (back _ _ _ Hwin _ nothing_fails _ _ _ _ 0%nat [] Ht) as (e & He & Hr).
  assert (usable_mtu 0) as Hu by (left; reflexivity). pose proof (C35_bmc app 0 eid l Hu Hl e He) as Hok.
  destruct (foot_sound _ _ _ _ _ _ (foot_history app eid l Hl) I e 0%nat (fun _ _ _ _ => eq_refl) (fun _ _ => I)) as [Hf _].
  destruct (run e 0 [] (ast_history app true 0 eid l)) as [w n tr'|]; [|contradiction]. destruct Hr as [-> ->]. cbn [events List.app] in Hf.
  split; [eauto|]. clear - Hf Hsh Etr Hmap. revert Hf. generalize (@nil event). induction Hsh as [|i t Hi Hsh IH]; intros g Hf; [constructor|].
  cbn [map each] in Hf. destruct Hf as [Hf1 Hf2]. constructor; [|exact (IH _ Hf2)]. clear IH Hf2 Hsh.
  assert (In (Ev (COpen path) (fb_kcs b)) tr) as Ho by (rewrite Etr; do 6 right; left; reflexivity).
  assert (In (Ev (CMmap fd' size') (Some base')) tr) as Hmm by (rewrite Etr; do 4 right; left; reflexivity).
  clear Etr. destruct i as [[c x]|addr bs|addr bs|bs rc|ev].
  - destruct c; cbn [on_kcs own event_of] in *; try contradiction.
    + destruct Hi as [-> Hi]. auto.
    + destruct Hi as [-> [->| ->]]; cbn [Z.eqb] in Hf1; cbn in Hf1; (split; [exact Ho|tauto]).
  - cbn [event_of] in Hf1. cbn [bok bmc_footprint] in Hf1. unfold bok, bmc_footprint, within, area in Hf1. cbn [Z.eqb] in Hf1.
    exists fd', base', size'. split; [exact Hmm|]. cbn zeta. lia.
  - cbn [event_of] in Hf1. unfold bok, bmc_footprint in Hf1.
    exists fd', base', size'. split; [exact Hmm|]. cbn zeta. unfold within, area in Hf1. cbn [Z.eqb] in Hf1.
    destruct Hf1 as [[H1 ->]|[(H1 & v & _ & ->)|[(H1 & n & _ & ->)|H1]]].
    + change (zlen (first_header 0)) with 32. lia.
    + change (zlen (be16 v)) with 2. lia.
    + change (zlen (layout_fields _ _ _ _)) with 16. lia.
    + lia.
  - exact Hf1.
  - exact I.
Qed.

(** With a smaller mapping, which mctp_astlpc_init_fileio accepts too, registering the binding
    writes outside it (or, where the window would begin at address 0, fails an assertion). *)
Theorem C84_small path tr b fd size base app eid l t r :
  exec (init_fileio path) tr (Some b) -> In (Ev (CMmap fd size) (Some base)) tr -> size < 1048576 ->
  on_files no_oom b (h_maps (after nothing tr)) (files_history app b eid l) t r ->
  (r = Outside \/ r = Undef AssertFail) /\ t = [Seen (EvAttach false eid)].
Proof.
  intros H Hin Hs Ht. destruct (fileio_calls _ _ _ H) as (fd' & size' & base' & -> & Hmap & Hc & Hm).
  assert (size' = size) as ->.
  { set (get := fun x => match x with Ev c y => match c with CMmap _ n => n | _ => 0 end end).
    cbn [In] in Hin. repeat destruct Hin as [Hin|Hin]; try discriminate Hin; try contradiction.
    apply (f_equal get) in Hin. exact Hin. }
  rewrite Hm in Ht. rewrite (files_is_ast _ _ _ _ Hc) in Ht. clear H Hin Hm Hc.
  assert (lpc_copy b [(base', size)] 0 32 = inl (if fb_map b =? 0 then Some AssertFail else None)) as Hcp.
  { unfold lpc_copy. cbn [Z.ltb Z.compare]. destruct (fb_map b =? 0); [reflexivity|]. unfold mapped. cbn [existsb fst snd].
    replace (base' <=? fb_map b + 0) with false by lia. reflexivity. }
  assert (exists f k, ast_history app true 0 eid l = Malloc f /\ f true = Emit (EvAttach false eid) (LWrite 0 (first_header 0) k))
    as (f & k & E1 & E2) by (do 2 eexists; split; reflexivity).
  rewrite E1 in Ht. cbn [on_files] in Ht. destruct Ht as (ok & Ho & Ht). rewrite (Ho eq_refl), E2 in Ht. clear E1 E2 Ho f.
  cbn [on_files] in Ht. change (zlen (first_header 0)) with 32 in Ht. rewrite Hcp in Ht. destruct Ht as (t' & -> & -> & ->).
  split; [|reflexivity]. destruct (fb_map b =? 0); [right|left]; reflexivity.
Qed.

(** Destroying the binding shows the BMC gone by one store to each register of its device (the
    second only if the first succeeded). *)
Theorem C84_gone b maps t r :
  on_files no_oom b maps (kcs_set_status 0) t r ->
  t = [Sys (Ev (CPwrite (fb_kcs b) 1 0) false)] \/
  exists ok, t = [Sys (Ev (CPwrite (fb_kcs b) 1 0) true); Sys (Ev (CPwrite (fb_kcs b) 0 255) ok)].
Proof.
  intros H. unfold kcs_set_status in H. cbn [on_files] in H. destruct H as (tr1 & ok & t1 & H1 & -> & _ & H).
  rewrite (write_one _ _ _ _ _ H1). destruct ok; cbn [negb on_files] in H.
  - destruct H as (tr2 & ok2 & t2 & H2 & -> & _ & H). rewrite (write_one _ _ _ _ _ H2).
    destruct ok2; cbn [on_files] in H; destruct H as [-> _]; right; eexists; reflexivity.
  - destruct H as [-> _]. left. reflexivity.
Qed.

(** A case: a binding on a mapping of 2 MiB is made, the host initialises the channel, a message
    is sent: the packet is stored to the memory 260 bytes into the last MiB of the mapping. *)
Definition two_mib : list ev :=
  [Ev (CAlloc HMctp) (Some 1); Ev (COpen lpc_path) 3; Ev (CGetSize 3) (Some 2097152); Ev (CMapLpc 3 266338304 2097152) true;
   Ev (CMmap 3 2097152) (Some 1048576); Ev (CClose 3) tt; Ev (COpen [107]) 4].
Definition two_fb : fbinding := mkFb 1 (astlpc_init true 0) 2097152 4.
Example C84_case :
  exec (init_fileio [107]) two_mib (Some two_fb) /\ In (Ev (CMmap 3 2097152) (Some 1048576)) two_mib /\
  exists t w, on_files no_oom two_fb (h_maps (after nothing two_mib))
    (files_history no_app two_fb 8 [APoll false; ACore (OpTx 9 true 0 [1; 2; 3])]) t (Came w) /\
    In (EvLWrite 260 [1; 9; 8; 200; 1; 2; 3; 53; 96; 81; 37]) (map (event_of two_fb) t) /\
    In (EvKWrite KData 1 true) (map (event_of two_fb) t).
Proof.
  assert (exec (init_fileio [107]) two_mib (Some two_fb)) as H.
  { unfold init_fileio, new_binding, fileio_lpc, ask, two_mib. cbn [bind exec]. do 2 eexists. split; [reflexivity|]. split; [exact I|].
    cbn [bind exec]. do 2 eexists. split; [reflexivity|]. split; [exact I|]. cbn [Z.ltb Z.compare bind exec].
    do 2 eexists. split; [reflexivity|]. split; [cbn; lia|]. cbn [bind exec]. change (Z.land 268435455 (w32 (- (2097152)))) with 266338304.
    do 2 eexists. split; [reflexivity|]. split; [exact I|]. cbn [negb bind exec].
    do 2 eexists. split; [reflexivity|]. split; [exact I|]. cbn [negb bind exec].
    do 2 eexists. split; [reflexivity|]. split; [exact I|]. cbn [negb bind exec Z.eqb].
    do 2 eexists. split; [reflexivity|]. split; [exact I|]. cbn [Z.ltb Z.compare negb bind exec]. split; reflexivity. }
  split; [exact H|]. assert (In (Ev (CMmap 3 2097152) (Some 1048576)) two_mib) as Hin by (do 4 right; left; reflexivity).
  split; [exact Hin|].
  destruct (C84_complete no_oom _ (files_history no_app two_fb 8 [APoll false; ACore (OpTx 9 true 0 [1; 2; 3])])
    (fun _ tr => In (EvLWrite 260 [1; 9; 8; 200; 1; 2; 3; 53; 96; 81; 37]) tr /\ In (EvKWrite KData 1 true) tr)
    two_fb (h_maps (after nothing two_mib))) as (t & w & H1 & H2).
  - set (ks := fun n => nth n [0; 0; 0; 0; 2] 0).
    eexists (kcs_env ks), _, _, _. split; [apply kcs_env_ok|]. split; [vm_compute; reflexivity|].
    split; vm_compute; repeat (try (left; reflexivity); right).
  - apply (window_there [107] two_mib two_fb 3 2097152 1048576); [exact H|exact Hin|lia|lia].
  - exists t, w. split; [exact H1|exact H2].
Qed.
