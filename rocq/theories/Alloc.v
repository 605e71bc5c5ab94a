(** Allocation hooks, /repo/alloc.c, and C47. *)
From Verif Require Import Base.

(** alloc.c:11-21: which of the three hooks are set. *)
Record hooks := Hooks { h_alloc : bool; h_free : bool; h_realloc : bool }.

(** A call of one of the user's hooks; a pointer is [None] for NULL. *)
Inductive hook_call :=
| HAlloc (n : Z)
| HFree (p : option Z)
| HRealloc (p : option Z) (n : Z).

(** __mctp_alloc, alloc.c:24-32. [None]: assertion failure. *)
Definition mctp_alloc (h : hooks) (n : Z) : option hook_call :=
  if h_alloc h then Some (HAlloc n)
  else if h_realloc h then Some (HRealloc None n)
  else None.
(** __mctp_free, alloc.c:34-42. *)
Definition mctp_free (h : hooks) (p : option Z) : option hook_call :=
  if h_free h then Some (HFree p)
  else if h_realloc h then Some (HRealloc p 0)
  else None.
(** __mctp_realloc, alloc.c:44-50. *)
Definition mctp_realloc (h : hooks) (p : option Z) (n : Z) : option hook_call :=
  if h_realloc h then Some (HRealloc p n) else None.

(** What the library does with memory, and the user's mctp_set_alloc_ops
    (alloc.c:52-58). *)
Inductive mop :=
| OSet (h : hooks)
| OAlloc (n : Z)
| OFree (p : option Z)
| ORealloc (p : option Z) (n : Z).

(** *** Specification: hooks that behave like malloc, free and realloc *)
Record heap := Heap { hp_next : Z; hp_live : list (Z * Z) }.
Definition drop (p : Z) (l : list (Z * Z)) := filter (fun b => negb (fst b =? p)) l.
(** One hook call: the pointer it returns and the heap it leaves. *)
Definition serve (m : heap) (c : hook_call) : option Z * heap :=
  match c with
  | HAlloc n | HRealloc None n =>
      (Some (hp_next m), Heap (hp_next m + 1) ((hp_next m, n) :: hp_live m))
  | HFree None => (None, m)
  | HFree (Some p) | HRealloc (Some p) 0 => (None, Heap (hp_next m) (drop p (hp_live m)))
  | HRealloc (Some p) n =>
      (Some (hp_next m), Heap (hp_next m + 1) ((hp_next m, n) :: drop p (hp_live m)))
  end.
(** What the library's users expect of each operation. *)
Definition wanted (m : heap) (o : mop) : option Z * heap :=
  match o with
  | OSet _ => (None, m)
  | OAlloc n => serve m (HAlloc n)
  | OFree p => serve m (HFree p)
  | ORealloc p n => serve m (HRealloc p n)
  end.

(** A history: [None] if an assertion failed, else results and heap. *)
Definition dispatch (h : hooks) (o : mop) : option hook_call :=
  match o with
  | OSet _ => None
  | OAlloc n => mctp_alloc h n
  | OFree p => mctp_free h p
  | ORealloc p n => mctp_realloc h p n
  end.
Fixpoint run_ops (h : hooks) (m : heap) (os : list mop) : option (list (option Z) * heap) :=
  match os with
  | [] => Some ([], m)
  | OSet h' :: os => run_ops h' m os
  | o :: os =>
      match dispatch h o with
      | None => None
      | Some c =>
          let (r, m1) := serve m c in
          match run_ops h m1 os with
          | None => None
          | Some (rs, m2) => Some (r :: rs, m2)
          end
      end
  end.
Fixpoint wanted_ops (m : heap) (os : list mop) : list (option Z) * heap :=
  match os with
  | [] => ([], m)
  | OSet _ :: os => wanted_ops m os
  | o :: os => let (r, m1) := wanted m o in
               let (rs, m2) := wanted_ops m1 os in (r :: rs, m2)
  end.

(** The hooks cover what is asked of them: m_realloc may stand in for the
    others, but nothing stands in for it. *)
Definition covers (h : hooks) (o : mop) : Prop :=
  match o with
  | OSet _ => True
  | OAlloc _ => h_alloc h = true \/ h_realloc h = true
  | OFree _ => h_free h = true \/ h_realloc h = true
  | ORealloc _ _ => h_realloc h = true
  end.
Fixpoint covered (h : hooks) (os : list mop) : Prop :=
  match os with
  | [] => True
  | OSet h' :: os => covered h' os
  | o :: os => covers h o /\ covered h os
  end.
(** NULL is freed only while the user has set m_free. *)
Fixpoint null_safe (h : hooks) (os : list mop) : Prop :=
  match os with
  | [] => True
  | OSet h' :: os => null_safe h' os
  | OFree None :: os => h_free h = true /\ null_safe h os
  | _ :: os => null_safe h os
  end.

(** With hooks that cover what is asked, whichever are set and whenever they are
    changed, the library's memory operations do what malloc, free and realloc
    would do. *)
Theorem C47_hooks : forall os h m, covered h os -> null_safe h os ->
  run_ops h m os = Some (wanted_ops m os).
Proof.
  induction os as [|o os IH]; intros h m C N; [reflexivity|].
  destruct o as [h'|n|p|p n].
  - apply IH; assumption.
  - destruct C as [C1 C2]. cbn [run_ops wanted_ops dispatch wanted]. unfold mctp_alloc.
    destruct (h_alloc h) eqn:A.
    + cbn [serve]. rewrite IH by assumption. destruct (wanted_ops _ os). reflexivity.
    + destruct C1 as [C1 | C1]; [congruence|]. rewrite C1.
      cbn [serve]. rewrite IH by assumption. destruct (wanted_ops _ os). reflexivity.
  - destruct C as [C1 C2]. cbn [run_ops wanted_ops dispatch wanted]. unfold mctp_free.
    destruct (h_free h) eqn:A.
    + assert (N' : null_safe h os) by (destruct p; [exact N|apply N]).
      destruct (serve m (HFree p)) as [r m1]. rewrite IH by assumption.
      destruct (wanted_ops _ os). reflexivity.
    + destruct C1 as [C1 | C1]; [congruence|]. rewrite C1.
      destruct p as [p|]; [|destruct N as [N _]; congruence].
      cbn [serve]. rewrite IH by assumption. destruct (wanted_ops _ os). reflexivity.
  - destruct C as [C1 C2]. cbn [run_ops wanted_ops dispatch wanted]. unfold mctp_realloc.
    cbn in C1. rewrite C1. destruct (serve m (HRealloc p n)) as [r m1].
    rewrite IH by assumption. destruct (wanted_ops _ os). reflexivity.
Qed.

(** Otherwise, and only then, the library asserts. *)
Theorem C47_asserts : forall os h m, run_ops h m os = None <-> ~ covered h os.
Proof.
  induction os as [|o os IH]; intros h m.
  - cbn. split; [discriminate|tauto].
  - assert (K : forall h m o, (forall h', o <> OSet h') ->
       ((match dispatch h o with
        | None => None
        | Some c => let (r, m1) := serve m c in
            match run_ops h m1 os with None => None | Some (rs, m2) => Some (r :: rs, m2) end
        end = None) <-> ~ (covers h o /\ covered h os))).
    { clear h m o. intros h m o NS. destruct (dispatch h o) as [c|] eqn:D.
      - assert (CV : covers h o).
        { destruct o as [h'|n|p|p n]; cbn in *; unfold mctp_alloc, mctp_free, mctp_realloc in D; auto;
            destruct (h_alloc h), (h_free h), (h_realloc h); auto; discriminate. }
        destruct (serve m c) as [r m1]. specialize (IH h m1).
        destruct (run_ops h m1 os) as [[rs m2]|].
        + split; [discriminate|]. intros H. exfalso. apply H. split; [exact CV|].
          destruct IH as [_ IH2].
          assert (HD : covered h os \/ ~ covered h os).
          { clear. revert h. induction os as [|o os IH]; intros h; [left; exact I|].
            destruct o as [h'|n|p|p n]; cbn; auto;
              (destruct (IH h) as [IH' | IH']; [|right; tauto]);
              destruct (h_alloc h), (h_free h), (h_realloc h);
              try (left; split; [auto; fail|exact IH']);
              right; intros [A _]; repeat destruct A as [A | A]; discriminate. }
          destruct HD as [HD | HD]; [exact HD|]. discriminate (IH2 HD).
        + split; [|reflexivity]. intros _ [_ H]. apply IH in H; [exact H|reflexivity].
      - split; [|reflexivity]. intros _ [CV _].
        destruct o as [h'|n|p|p n]; [exact (NS h' eq_refl)| | |]; cbn in *;
          unfold mctp_alloc, mctp_free, mctp_realloc in D;
          destruct (h_alloc h), (h_free h), (h_realloc h); try discriminate;
          repeat destruct CV as [CV | CV]; discriminate. }
    destruct o as [h'|n|p|p n]; [apply IH| | |]; apply K; discriminate.
Qed.

(** Without m_free, freeing NULL (which free would ignore, and which
    mctp_destroy does when no bus was registered, core.c:330) reaches
    m_realloc(NULL, 0), which like realloc is entitled to hand out a new block:
    the claim that every free frees is false. *)
Theorem C47_free_null : forall m,
  run_ops (Hooks false false true) m [OFree None]
  = Some ([Some (hp_next m)], Heap (hp_next m + 1) ((hp_next m, 0) :: hp_live m)).
Proof. reflexivity. Qed.

Theorem C47_case :
  run_ops (Hooks false false true) (Heap 1 [])
    [OAlloc 16; ORealloc (Some 1) 32; OSet (Hooks true true false); OAlloc 8; OFree (Some 2)]
  = Some ([Some 1; Some 2; Some 3; None], Heap 4 [(3, 8)]).
Proof. reflexivity. Qed.
