(** PropOptions: C77, the daemon's command line. *)
From Verif Require Import Base Lists Startup PropStartup Daemon PropDaemon DaemonRun DaemonBugs Options.
From Coq Require Import String.
Notation length := (@Datatypes.length _).
Open Scope list_scope.

(** ** Specification *)

(** What a user can say on the command line. *)
Inductive item :=
| Eid (v : str)
| CapBinding (path : str)
| CapSocket (path : option str)          (* [None]: -s without an attached path *)
| LinkBinding (v : str) | LinkSocket (v : str)   (* deprecated *)
| Verbose
| Operandw (w : str).

(** The long options and the items they give. *)
Definition dash : Z := 45.
Definition equals : Z := 61.
Definition names : list str :=
  [bytes "capture-binding"; bytes "capture-socket"; bytes "binding-linktype"; bytes "socket-linktype"; bytes "verbose"; bytes "eid"].
Definition with_value (name v : str) (i : item) : Prop :=
  (name = bytes "eid" /\ i = Eid v) \/
  (name = bytes "capture-binding" /\ i = CapBinding v) \/
  (name = bytes "capture-socket" /\ i = CapSocket (Some v)) \/
  (name = bytes "binding-linktype" /\ i = LinkBinding v) \/
  (name = bytes "socket-linktype" /\ i = LinkSocket v).
(** [n] is the name or an unambiguous abbreviation of it. *)
Definition begins (n name : str) : Prop := exists t, name = n ++ t.
Definition abbreviates (n name : str) : Prop :=
  In name names /\ (n = name \/ (begins n name /\ forall m, In m names -> begins n m -> m = name)).

(** [spells l ws]: the words [ws] say [l].  A word of short options is any number of v,
    followed by at most one option that takes the rest of the word or the next one. *)
Definition vs (k : nat) : str := repeat 118 k.
Inductive spells : list item -> list str -> Prop :=
| SWord w : (forall t, w <> dash :: t) -> spells [Operandw w] [w]
| SDash : spells [Operandw [dash]] [[dash]]
| SLongEq name n v i : abbreviates n name -> with_value name v i -> spells [i] [dash :: dash :: n ++ equals :: v]
| SLongSep name n v i : abbreviates n name -> with_value name v i -> spells [i] [dash :: dash :: n; v]
| SLongVerbose n : abbreviates n (bytes "verbose") -> spells [Verbose] [dash :: dash :: n]
| SVerbose k : spells (repeat Verbose (S k)) [dash :: vs (S k)]
| SBindingSep k v : spells (repeat Verbose k ++ [CapBinding v]) [dash :: vs k ++ bytes "b"; v]
| SBinding k v : v <> [] -> spells (repeat Verbose k ++ [CapBinding v]) [dash :: vs k ++ bytes "b" ++ v]
| SSocket k v : v <> [] -> spells (repeat Verbose k ++ [CapSocket (Some v)]) [dash :: vs k ++ bytes "s" ++ v]
| SNoSocket k : spells (repeat Verbose k ++ [CapSocket None]) [dash :: vs k ++ bytes "s"].
Inductive line : list item -> list str -> Prop :=
| LNil : line [] []
| LMore l ws l' ws' : spells l ws -> line l' ws' -> line (l ++ l') (ws ++ ws').
(** A command line: what is said, and after "--" only operands. *)
Inductive command : list item -> list str -> Prop :=
| CPlain l ws : line l ws -> command l ws
| CDashes l ws ops : line l ws -> command (l ++ map Operandw ops) (ws ++ [dash; dash] :: ops).

(** Words that end the program: an option that does not exist (or an ambiguous
    abbreviation), a value for --verbose, an argument missing at the end. *)
Inductive wrong : str -> list str -> Prop :=
| WShort k c t rest : ~ In c (bytes "vbse") -> (k = 0%nat -> c <> dash) -> wrong (dash :: vs k ++ c :: t) rest
| WLong n v rest : ~ In equals n -> (n = [] -> v <> []) -> (forall name, ~ abbreviates n name) ->
    (v = [] \/ exists x, v = equals :: x) -> wrong (dash :: dash :: n ++ v) rest
| WValue n x rest : abbreviates n (bytes "verbose") -> wrong (dash :: dash :: n ++ equals :: x) rest
| WMissing k : wrong (dash :: vs k ++ bytes "b") []
| WMissingLong n name : abbreviates n name -> name <> bytes "verbose" -> wrong (dash :: dash :: n) [].
(** Words that crash it: short options containing e. *)
Inductive crashing : str -> Prop :=
| CrEid k t : crashing (dash :: vs k ++ bytes "e" ++ t).

(** What is meant: the last of each option counts. *)
Fixpoint last_of {A} (f : item -> option A) (d : A) (l : list item) : A :=
  match l with [] => d | i :: t => last_of f (match f i with Some x => x | None => d end) t end.
Definition eid_of (i : item) : option Z := match i with Eid v => Some (atoi v) | _ => None end.
Definition binding_of (i : item) : option (option str) := match i with CapBinding p => Some (Some p) | _ => None end.
Definition socket_of (i : item) : option (option str) := match i with CapSocket p => Some p | _ => None end.
Definition verbose_of (i : item) : option bool := match i with Verbose => Some true | _ => None end.
Definition operands (l : list item) : list str := flat_map (fun i => match i with Operandw w => [w] | _ => [] end) l.
Definition meant (l : list item) : settings :=
  mkSet (last_of eid_of 8 l) (last_of binding_of None l) (last_of socket_of None l) (last_of verbose_of false l).

(** ** Words *)
Definition need_dec (a b : need) : {a = b} + {a <> b}.
Proof. decide equality. Defined.
Definition found_of (i : item) : list found :=
  match i with
  | Eid v => [Opt 101 (Some v)]
  | CapBinding p => [Opt 98 (Some p)]
  | CapSocket p => [Opt 115 p]
  | LinkBinding v => [Opt 66 (Some v)]
  | LinkSocket v => [Opt 83 (Some v)]
  | Verbose => [Opt 118 None]
  | Operandw _ => []
  end.
Definition founds (l : list item) : list found := flat_map found_of l.
Lemma founds_app l l' : founds (l ++ l') = founds l ++ founds l'.
Proof. apply flat_map_app. Qed.
Lemma operands_app l l' : operands (l ++ l') = operands l ++ operands l'.
Proof. apply flat_map_app. Qed.

Lemma str_eqb_eq a : forall b, str_eqb a b = true <-> a = b.
Proof.
  induction a as [|x a IH]; destruct b as [|y b]; cbn; try (split; [discriminate|discriminate]); [tauto|].
  rewrite Bool.andb_true_iff, Z.eqb_eq, IH. split; [intros [-> ->]; reflexivity|intros [= -> ->]; auto].
Qed.
Lemma prefixb_begins a : forall b, prefixb a b = true <-> begins a b.
Proof.
  induction a as [|x a IH]; destruct b as [|y b]; cbn.
  - split; [now exists []|auto].
  - split; [now exists (y :: b)|auto].
  - split; [discriminate|intros (t & E); discriminate].
  - rewrite Bool.andb_true_iff, Z.eqb_eq, IH. split.
    + intros [-> (t & ->)]. now exists t.
    + intros (t & E). injection E as -> ->. split; [reflexivity|now exists t].
Qed.

Definition val_of (name : str) : option (need * Z) :=
  match filter (fun o => str_eqb (fst (fst o)) name) longs with (_, k, c) :: _ => Some (k, c) | [] => None end.

Lemma longs_names : map (fun o : str * need * Z => fst (fst o)) longs = names.
Proof. reflexivity. Qed.

Lemma long_in (o : str * need * Z) : In o longs -> In (fst (fst o)) names.
Proof. intros H. rewrite <- longs_names. exact (in_map (fun o : str * need * Z => fst (fst o)) _ _ H). Qed.

Lemma lookup_name n name : abbreviates n name -> lookup n = val_of name.
Proof.
  intros [Hin H]. assert (n = name \/ (n <> name /\ begins n name /\ forall m, In m names -> begins n m -> m = name)) as [->|(Hne & Hb & Hu)].
  { destruct H as [->|[H1 H2]]; [now left|]. destruct (list_eq_dec Z.eq_dec n name); [now left|right; auto]. }
  - unfold lookup, val_of. rewrite <- longs_names in Hin. apply in_map_iff in Hin. destruct Hin as ([[m k] c] & <- & Hin).
    destruct (filter _ longs) as [|[[m' k'] c'] r] eqn:E; [|reflexivity]. exfalso.
    assert (In (m, k, c) []) as []. rewrite <- E. apply filter_In. split; [exact Hin|]. cbn. now apply str_eqb_eq.
  - assert (forall m, In m names -> prefixb n m = true -> m = name) as Hu' by (intros m Hm Hp; apply Hu; [exact Hm|now apply prefixb_begins]).
    apply prefixb_begins in Hb.
    assert (filter (fun o : str * need * Z => str_eqb (fst (fst o)) n) longs = []) as E1.
    { destruct (filter _ longs) as [|o r] eqn:E; [reflexivity|]. exfalso.
      assert (In o (o :: r)) as Ho by now left. rewrite <- E in Ho. apply filter_In in Ho. destruct Ho as [Ho Heq]. apply str_eqb_eq in Heq.
      apply Hne. rewrite <- Heq. apply Hu; [now apply long_in|]. exists []. rewrite Heq. now rewrite app_nil_r. }
    assert (filter (fun o : str * need * Z => prefixb n (fst (fst o))) longs = filter (fun o : str * need * Z => str_eqb (fst (fst o)) name) longs) as E2.
    { apply filter_ext_in. intros o Ho. destruct (str_eqb (fst (fst o)) name) eqn:E.
      - apply str_eqb_eq in E. now rewrite E.
      - destruct (prefixb n (fst (fst o))) eqn:Ep; [|reflexivity]. exfalso.
        assert (fst (fst o) = name) as Eo by (apply Hu'; [now apply long_in|exact Ep]).
        apply str_eqb_eq in Eo. congruence. }
    unfold lookup, val_of. rewrite E1, E2.
    rewrite <- longs_names in Hin. clear - Hin. 
    cbn [map In longs fst] in Hin. repeat (destruct Hin as [<-|Hin]; [vm_compute; reflexivity|]). destruct Hin.
Qed.
Lemma lookup_abbreviates n k c : lookup n = Some (k, c) -> exists name, abbreviates n name /\ val_of name = Some (k, c).
Proof.
  unfold lookup. destruct (filter (fun o : str * need * Z => str_eqb (fst (fst o)) n) longs) as [|[[m k'] c'] r] eqn:E1.
  - destruct (filter (fun o : str * need * Z => prefixb n (fst (fst o))) longs) as [|[[m k'] c'] [|]] eqn:E2; try discriminate.
    intros [= -> ->]. exists m. assert (In (m, k, c) longs /\ prefixb n m = true) as [Hin Hp].
    { assert (In (m, k, c) [(m, k, c)]) as Ho by now left. rewrite <- E2 in Ho. apply filter_In in Ho. exact Ho. }
    assert (abbreviates n m) as Ha.
    { split; [exact (long_in _ Hin)|]. right.
      split; [now apply prefixb_begins|]. intros m' Hm' Hb. rewrite <- longs_names in Hm'. apply in_map_iff in Hm'.
      destruct Hm' as (o & <- & Ho). assert (In o (filter (fun o : str * need * Z => prefixb n (fst (fst o))) longs)) as Hf.
      { apply filter_In. split; [exact Ho|]. now apply prefixb_begins. }
      rewrite E2 in Hf. destruct Hf as [<-|[]]. reflexivity. }
    split; [exact Ha|]. clear - Hin. cbn [In longs] in Hin.
    repeat (destruct Hin as [[= <- <- <-]|Hin]; [vm_compute; reflexivity|]). destruct Hin.
  - intros [= -> ->]. exists n. assert (In (m, k, c) longs /\ str_eqb m n = true) as [Hin Hp].
    { assert (In (m, k, c) ((m, k, c) :: r)) as Ho by now left. rewrite <- E1 in Ho. apply filter_In in Ho. exact Ho. }
    apply str_eqb_eq in Hp. subst m. split; [|unfold val_of; now rewrite E1].
    split; [|now left]. exact (long_in _ Hin).
Qed.

Lemma val_with_value name c : val_of name = Some (MustArg, c) ->
  forall v, exists i, with_value name v i /\ found_of i = [Opt c (Some v)] /\ operands [i] = [].
Proof.
  intros H v. unfold val_of in H.
  destruct (filter _ longs) as [|[[m k'] c'] r] eqn:E; [discriminate|]. injection H as -> ->.
  assert (In (m, MustArg, c) longs /\ str_eqb m name = true) as [Hin Hp].
  { assert (In (m, MustArg, c) ((m, MustArg, c) :: r)) as Ho by now left. rewrite <- E in Ho. apply filter_In in Ho. exact Ho. }
  apply str_eqb_eq in Hp. subst m. clear E. unfold with_value. cbn [In longs] in Hin.
  destruct Hin as [[= <- <-]|[[= <- <-]|[[= <- <-]|[[= <- <-]|[[=]|[[= <- <-]|[]]]]]]].
  - exists (CapBinding v). cbn. auto 9.
  - exists (CapSocket (Some v)). cbn. auto 9.
  - exists (LinkBinding v). cbn. auto 9.
  - exists (LinkSocket v). cbn. auto 9.
  - exists (Eid v). cbn. auto 9.
Qed.
Lemma with_value_val name v i : with_value name v i ->
  exists c, val_of name = Some (MustArg, c) /\ found_of i = [Opt c (Some v)] /\ operands [i] = [].
Proof.
  intros [[-> ->]|[[-> ->]|[[-> ->]|[[-> ->]|[-> ->]]]]]; eexists; (split; [vm_compute; reflexivity|]); split; reflexivity.
Qed.
Lemma val_noarg name k c : val_of name = Some (k, c) -> k <> MustArg -> name = bytes "verbose" /\ k = NoArg /\ c = 118.
Proof.
  intros H Hk. unfold val_of in H.
  destruct (filter _ longs) as [|[[m k'] c'] r] eqn:E; [discriminate|]. injection H as -> ->.
  assert (In (m, k, c) longs /\ str_eqb m name = true) as [Hin Hp].
  { assert (In (m, k, c) ((m, k, c) :: r)) as Ho by now left. rewrite <- E in Ho. apply filter_In in Ho. exact Ho. }
  apply str_eqb_eq in Hp. subst m. clear E. cbn [In longs] in Hin.
  destruct Hin as [[= <- <- <-]|[[= <- <- <-]|[[= <- <- <-]|[[= <- <- <-]|[[= <- <- <-]|[[= <- <- <-]|[]]]]]]]; try congruence.
  repeat split.
Qed.

(** No name contains an equals sign, nor is any abbreviation empty. *)
Lemma abbrev_clean n name : abbreviates n name -> ~ In equals n /\ n <> [].
Proof.
  intros [Hin H]. assert (begins n name) as [t Hb] by (destruct H as [->|[H _]]; [exists []; now rewrite app_nil_r|exact H]).
  split.
  - intros He. assert (In equals name) as He' by (rewrite Hb; apply in_or_app; now left). clear - Hin He'.
    assert (forall m, In m names -> forallb (fun c => negb (c =? 61)) m = true) as Hn.
    { intros m Hm. cbn [names In] in Hm. repeat (destruct Hm as [<-|Hm]; [vm_compute; reflexivity|]). destruct Hm. }
    specialize (Hn name Hin). rewrite forallb_forall in Hn. specialize (Hn _ He'). discriminate.
  - intros ->. destruct H as [<-|[_ H]].
    + cbn [names In] in Hin. repeat (destruct Hin as [Hin|Hin]; [vm_compute in Hin; discriminate|]). destruct Hin.
    + assert (bytes "eid" = name) as E1 by (apply H; [cbn; auto 9|exists (bytes "eid"); reflexivity]).
      assert (bytes "verbose" = name) as E2 by (apply H; [cbn; auto 9|exists (bytes "verbose"); reflexivity]).
      rewrite <- E2 in E1. vm_compute in E1. discriminate.
Qed.
Lemma split_no n : ~ In equals n -> split_eq n = (n, None).
Proof.
  induction n as [|c n IH]; cbn; [reflexivity|]. intros H. destruct (c =? 61) eqn:E.
  - exfalso. apply H. left. apply Z.eqb_eq in E. exact E.
  - rewrite IH by tauto. reflexivity.
Qed.
Lemma split_yes n v : ~ In equals n -> split_eq (n ++ equals :: v) = (n, Some v).
Proof.
  induction n as [|c n IH]; cbn; [reflexivity|]. intros H. destruct (c =? 61) eqn:E.
  - exfalso. apply H. left. apply Z.eqb_eq in E. exact E.
  - rewrite IH by tauto. reflexivity.
Qed.
Lemma split_inv s n v : split_eq s = (n, v) -> ~ In equals n /\ s = n ++ match v with Some x => equals :: x | None => [] end.
Proof.
  revert n v. induction s as [|c s IH]; cbn; intros n v.
  - intros [= <- <-]. split; [intros []|reflexivity].
  - destruct (c =? 61) eqn:E.
    + intros [= <- <-]. apply Z.eqb_eq in E. subst c. split; [intros []|reflexivity].
    + destruct (split_eq s) as [n' v'] eqn:Es. intros [= <- <-]. destruct (IH _ _ eq_refl) as [H1 ->]. split; [|reflexivity].
      intros [H|H]; [|exact (H1 H)]. apply Z.eqb_neq in E. apply E. exact H.
Qed.

Definition prepend (l : list found) (w : word) : word :=
  match w with Complete l' => Complete (l ++ l') | Wants l' c => Wants (l ++ l') c | w => w end.
Lemma cluster_vs k s : cluster (vs k ++ s) = prepend (repeat (Opt 118 None) k) (cluster s).
Proof.
  induction k as [|k IH]; cbn [vs repeat Datatypes.app].
  - destruct (cluster s); reflexivity.
  - fold (vs k). cbn [cluster]. change (short 118) with (Some NoArg). cbv iota. rewrite IH. destruct (cluster s); reflexivity.
Qed.
Lemma founds_vs k : founds (repeat Verbose k) = repeat (Opt 118 None) k.
Proof.
  induction k as [|k IH]; [reflexivity|]. cbn [repeat].
  change (founds (Verbose :: repeat Verbose k)) with (Opt 118 None :: founds (repeat Verbose k)). now rewrite IH.
Qed.
Lemma operands_vs k : operands (repeat Verbose k) = [].
Proof. induction k as [|k IH]; [reflexivity|exact IH]. Qed.
Lemma cluster_not s : cluster s <> Operand /\ cluster s <> Stop.
Proof.
  induction s as [|c s IH]; cbn; [split; discriminate|]. destruct (short c) as [[]|]; try (split; discriminate).
  - destruct IH. destruct (cluster s); split; congruence.
  - destruct s; split; discriminate.
  - destruct s; split; discriminate.
Qed.

Lemma scan_spells l ws rest : spells l ws ->
  scan (ws ++ rest) = (founds l ++ fst (scan rest), operands l ++ snd (scan rest)).
Proof.
  intros H. destruct H as [w Hw| |name n v i Ha Hv|name n v i Ha Hv|n Ha|k|k v|k v Hv|k v Hv|k].
  - cbn [Datatypes.app scan]. assert (classify w = Operand) as ->.
    { destruct w as [|c t]; [reflexivity|]. cbn [classify]. destruct (c =? 45) eqn:E; [|reflexivity].
      apply Z.eqb_eq in E. subst c. now destruct (Hw t). }
    destruct (scan rest). reflexivity.
  - cbn [Datatypes.app scan]. change (classify [dash]) with Operand. cbv iota. destruct (scan rest). reflexivity.
  - destruct (abbrev_clean _ _ Ha) as [Hc Hn]. destruct (with_value_val _ _ _ Hv) as (c & Hl & Hf & Ho).
    cbn [Datatypes.app scan]. assert (classify (dash :: dash :: n ++ equals :: v) = Complete [Opt c (Some v)]) as ->.
    { unfold classify. change (dash =? 45) with true. cbv iota.
      destruct (n ++ equals :: v) as [|d s] eqn:E; [destruct n; discriminate|]. rewrite <- E. unfold long. rewrite split_yes by exact Hc.
      rewrite (lookup_name _ _ Ha), Hl. reflexivity. }
    destruct (scan rest). unfold founds. cbn [flat_map fst snd]. rewrite Hf, Ho. reflexivity.
  - destruct (abbrev_clean _ _ Ha) as [Hc Hn]. destruct (with_value_val _ _ _ Hv) as (c & Hl & Hf & Ho).
    cbn [Datatypes.app scan]. assert (classify (dash :: dash :: n) = Wants [] c) as ->.
    { unfold classify. change (dash =? 45) with true. cbv iota.
      destruct n as [|d s] eqn:E; [congruence|]. rewrite <- E in *. unfold long. rewrite split_no by exact Hc.
      rewrite (lookup_name _ _ Ha), Hl. reflexivity. }
    destruct (scan rest). unfold founds. cbn [flat_map fst snd]. rewrite Hf, Ho. reflexivity.
  - destruct (abbrev_clean _ _ Ha) as [Hc Hn].
    cbn [Datatypes.app scan]. assert (classify (dash :: dash :: n) = Complete [Opt 118 None]) as ->.
    { unfold classify. change (dash =? 45) with true. cbv iota.
      destruct n as [|d s] eqn:E; [congruence|]. rewrite <- E in *. unfold long. rewrite split_no by exact Hc.
      rewrite (lookup_name _ _ Ha). vm_compute. reflexivity. }
    destruct (scan rest). reflexivity.
  - cbn [Datatypes.app scan]. assert (classify (dash :: vs (S k)) = Complete (repeat (Opt 118 None) (S k))) as ->.
    { unfold classify. change (dash =? 45) with true. cbv iota. cbn [vs repeat]. change (118 =? 45) with false. cbv iota.
      change (118 :: repeat 118 k) with (vs (S k)). rewrite <- (app_nil_r (vs (S k))), cluster_vs. cbn [cluster prepend]. now rewrite app_nil_r. }
    destruct (scan rest). rewrite founds_vs, operands_vs. reflexivity.
  - assert (classify (dash :: vs k ++ bytes "b") = Wants (repeat (Opt 118 None) k) 98) as Hc.
    { unfold classify. change (dash =? 45) with true. cbv iota. destruct k as [|k]; [reflexivity|]. cbn [vs repeat Datatypes.app].
      change (118 =? 45) with false. cbv iota. change (118 :: repeat 118 k ++ bytes "b") with (vs (S k) ++ bytes "b").
      rewrite cluster_vs. cbn [prepend bytes cluster short]. vm_compute (cluster (bytes "b")). cbn [prepend]. now rewrite app_nil_r. }
    cbn [Datatypes.app scan]. rewrite Hc. destruct (scan rest). rewrite founds_app, operands_app, founds_vs, operands_vs.
    cbn [fst snd]. rewrite <- app_assoc. reflexivity.
  - assert (classify (dash :: vs k ++ bytes "b" ++ v) = Complete (repeat (Opt 118 None) k ++ [Opt 98 (Some v)])) as Hc.
    { assert (cluster (vs k ++ bytes "b" ++ v) = Complete (repeat (Opt 118 None) k ++ [Opt 98 (Some v)])) as Hcl.
      { rewrite cluster_vs. assert (cluster (bytes "b" ++ v) = Complete [Opt 98 (Some v)]) as ->; [|reflexivity].
        destruct v; [congruence|reflexivity]. }
      unfold classify. change (dash =? 45) with true. cbv iota. destruct k as [|k]; [exact Hcl|exact Hcl]. }
    cbn [Datatypes.app scan]. rewrite Hc. destruct (scan rest). rewrite founds_app, operands_app, founds_vs, operands_vs.
    cbn [fst snd]. reflexivity.
  - assert (classify (dash :: vs k ++ bytes "s" ++ v) = Complete (repeat (Opt 118 None) k ++ [Opt 115 (Some v)])) as Hc.
    { assert (cluster (vs k ++ bytes "s" ++ v) = Complete (repeat (Opt 118 None) k ++ [Opt 115 (Some v)])) as Hcl.
      { rewrite cluster_vs. assert (cluster (bytes "s" ++ v) = Complete [Opt 115 (Some v)]) as ->; [|reflexivity].
        destruct v; [congruence|reflexivity]. }
      unfold classify. change (dash =? 45) with true. cbv iota. destruct k as [|k]; [exact Hcl|exact Hcl]. }
    cbn [Datatypes.app scan]. rewrite Hc. destruct (scan rest). rewrite founds_app, operands_app, founds_vs, operands_vs.
    cbn [fst snd]. reflexivity.
  - assert (classify (dash :: vs k ++ bytes "s") = Complete (repeat (Opt 118 None) k ++ [Opt 115 None])) as Hc.
    { assert (cluster (vs k ++ bytes "s") = Complete (repeat (Opt 118 None) k ++ [Opt 115 None])) as Hcl by (rewrite cluster_vs; reflexivity).
      unfold classify. change (dash =? 45) with true. cbv iota. destruct k as [|k]; [exact Hcl|exact Hcl]. }
    cbn [Datatypes.app scan]. rewrite Hc. destruct (scan rest). rewrite founds_app, operands_app, founds_vs, operands_vs.
    cbn [fst snd]. reflexivity.
Qed.
Lemma scan_line l ws : line l ws -> forall rest,
  scan (ws ++ rest) = (founds l ++ fst (scan rest), operands l ++ snd (scan rest)).
Proof.
  induction 1 as [|l ws l' ws' Hs Hl IH]; intros rest.
  - cbn [Datatypes.app]. destruct (scan rest); reflexivity.
  - rewrite <- app_assoc, (scan_spells _ _ _ Hs), IH. cbn [fst snd]. now rewrite founds_app, operands_app, <- !app_assoc.
Qed.
Lemma operands_map ops : operands (map Operandw ops) = ops.
Proof. induction ops as [|o ops IH]; [reflexivity|]. change (o :: operands (map Operandw ops) = o :: ops). now rewrite IH. Qed.
Lemma scan_command l args : command l args -> scan args = (founds l, operands l).
Proof.
  intros [l0 ws Hl|l0 ws ops Hl].
  - rewrite <- (app_nil_r ws), (scan_line _ _ Hl). cbn. now rewrite !app_nil_r.
  - rewrite (scan_line _ _ Hl). cbn [scan]. change (classify [dash; dash]) with Stop. cbv iota. cbn [fst snd].
    rewrite founds_app, operands_app. f_equal.
    + f_equal. induction ops as [|o ops IH]; [reflexivity|exact IH].
    + now rewrite operands_map.
Qed.

Definition meant_from (s : settings) (l : list item) : settings :=
  mkSet (last_of eid_of (s_eid s) l) (last_of binding_of (s_cap_binding s) l) (last_of socket_of (s_cap_socket s) l)
        (last_of verbose_of (s_verbose s) l).
Lemma apply_founds l : forall s more, apply_opts s (founds l ++ more) = apply_opts (meant_from s l) more.
Proof.
  induction l as [|i l IH]; intros s more; [destruct s; reflexivity|].
  change (founds (i :: l)) with (found_of i ++ founds l). rewrite <- app_assoc.
  destruct i; cbn [found_of Datatypes.app apply_opts Z.eqb Pos.eqb orb]; rewrite IH; reflexivity.
Qed.

(** ** C77 *)

(** Every command line of the grammar is understood: the daemon goes on with the last value
    of each option and the operands in order; without an operand it leaves. *)
Theorem C77_parsed l args : command l args ->
  parse args = match operands l with [] => Leaves | ops => Goes (meant l) ops end.
Proof.
  intros H. unfold parse. rewrite (scan_command _ _ H). rewrite <- (app_nil_r (founds l)), apply_founds. cbn [apply_opts].
  destruct (operands l); reflexivity.
Qed.

(** What happens at a word that is not of the grammar. *)
Lemma vs_inv s : exists k t, s = vs k ++ t /\ hd 0 t <> 118.
Proof.
  induction s as [|c s (k & t & -> & H)]; [exists 0%nat, []; split; [reflexivity|discriminate]|].
  destruct (Z.eq_dec c 118) as [->|Hc].
  - exists (S k), t. auto.
  - exists 0%nat, (c :: vs k ++ t). auto.
Qed.
Lemma classify_cluster k s : (k = 0%nat -> s <> [] /\ hd 0 s <> dash) -> classify (dash :: vs k ++ s) = cluster (vs k ++ s).
Proof.
  intros H. unfold classify. change (dash =? 45) with true. cbv iota. destruct k as [|k].
  - destruct (H eq_refl) as [H1 H2]. cbn [vs repeat Datatypes.app]. destruct s as [|c t]; [congruence|].
    cbn [hd] in H2. replace (c =? 45) with false by (unfold dash in *; lia). reflexivity.
  - reflexivity.
Qed.

(** Each word begins something of the grammar, is "--", or ends the program. *)
Lemma next_word a rest :
  (exists l ws rest', spells l ws /\ a :: rest = ws ++ rest') \/ a = [dash; dash] \/ crashing a \/ wrong a rest.
Proof.
  destruct a as [|c a].
  { left. exists [Operandw []], [[]], rest. split; [|reflexivity]. apply SWord. discriminate. }
  destruct (Z.eq_dec c dash) as [->|Hc].
  2:{ left. exists [Operandw (c :: a)], [c :: a], rest. split; [|reflexivity]. apply SWord. congruence. }
  destruct a as [|d a].
  { left. exists [Operandw [dash]], [[dash]], rest. split; [apply SDash|reflexivity]. }
  destruct (Z.eq_dec d dash) as [->|Hd].
  - destruct a as [|x a]; [right; left; reflexivity|]. set (s := x :: a) in *.
    destruct (split_eq s) as [n v] eqn:Es. apply split_inv in Es. destruct Es as [Hne Hs].
    assert (s <> []) as Hs0 by discriminate. clearbody s. subst s. clear x a.
    destruct (lookup n) as [[k c]|] eqn:El.
    + apply lookup_abbreviates in El. destruct El as (name & Ha & Hv).
      destruct (need_dec k MustArg) as [->|Hk].
      * destruct v as [v|].
        -- left. destruct (val_with_value _ _ Hv v) as (i & Hw & _). eexists [i], [_], rest. split; [|reflexivity]. eapply SLongEq; eassumption.
        -- rewrite app_nil_r. destruct rest as [|v rest].
           ++ right. right. right. eapply WMissingLong; [exact Ha|]. intros ->. vm_compute in Hv. discriminate.
           ++ left. destruct (val_with_value _ _ Hv v) as (i & Hw & _). eexists [i], [_; v], rest. split; [|reflexivity]. eapply SLongSep; eassumption.
      * destruct (val_noarg _ _ _ Hv Hk) as (-> & -> & ->). destruct v as [v|].
        -- right. right. right. now apply WValue.
        -- left. rewrite app_nil_r. eexists [Verbose], [_], rest. split; [|reflexivity]. now apply SLongVerbose.
    + right. right. right. apply WLong; [exact Hne| | |destruct v; eauto].
      * intros ->. destruct v; [discriminate|]. exfalso. now apply Hs0.
      * intros name Ha. rewrite (lookup_name _ _ Ha) in El. destruct Ha as [Hin _]. clear - El Hin.
        cbn [names In] in Hin. repeat (destruct Hin as [<-|Hin]; [vm_compute in El; discriminate|]). destruct Hin.
  - destruct (vs_inv (d :: a)) as (k & t & E & Ht). rewrite E. destruct t as [|c t].
    { destruct k as [|k]; [discriminate|]. rewrite app_nil_r. left. eexists _, [_], rest. split; [apply SVerbose|reflexivity]. }
    cbn [hd] in Ht. destruct (Z.eq_dec c 98) as [->|Hb].
    { destruct t as [|x t].
      - destruct rest as [|v rest]; [right; right; right; apply (WMissing k)|].
        left. eexists _, [_; v], rest. split; [apply (SBindingSep k v)|reflexivity].
      - left. eexists _, [_], rest. split; [apply (SBinding k (x :: t)); discriminate|reflexivity]. }
    destruct (Z.eq_dec c 115) as [->|Hs].
    { destruct t as [|x t].
      - left. eexists _, [_], rest. split; [apply (SNoSocket k)|reflexivity].
      - left. eexists _, [_], rest. split; [apply (SSocket k (x :: t)); discriminate|reflexivity]. }
    destruct (Z.eq_dec c 101) as [->|He]; [right; right; left; apply (CrEid k t)|].
    right. right. right. apply WShort.
    + intros [H|[H|[H|[H|[]]]]]; cbn in H; congruence.
    + intros ->. cbn in E. injection E as <- <-. exact Hd.
Qed.

(** Every list of words is a command line, or a beginning of one followed by such a word. *)
Lemma total : forall n args, (length args <= n)%nat ->
  (exists l, command l args) \/
  (exists l ws a rest, line l ws /\ args = ws ++ a :: rest /\ (crashing a \/ wrong a rest)).
Proof.
  induction n as [|n IH]; intros args Hn.
  { destruct args; [|cbn in Hn; lia]. left. exists []. apply CPlain, LNil. }
  destruct args as [|a rest]; [left; exists []; apply CPlain, LNil|].
  destruct (next_word a rest) as [(l & ws & rest' & Hs & E)|[->|H]].
  - assert (length rest' <= n)%nat as Hn'.
    { assert (length ws <> 0)%nat by (destruct Hs; discriminate). apply (f_equal (@Datatypes.length str)) in E. rewrite app_length in E. cbn in *. lia. }
    destruct (IH rest' Hn') as [(l' & Hc)|(l' & ws' & a' & r' & Hl & -> & H)].
    + left. exists (l ++ l'). rewrite E. destruct Hc as [l' ws' Hl|l' ws' ops Hl].
      * apply CPlain, LMore; assumption.
      * rewrite !app_assoc. apply CDashes. now apply LMore.
    + right. exists (l ++ l'), (ws ++ ws'), a', r'. split; [now apply LMore|]. rewrite E. split; [now rewrite app_assoc|exact H].
  - left. exists (map Operandw rest). apply (CDashes [] [] rest LNil).
  - right. exists [], [], a, rest. split; [apply LNil|]. split; [reflexivity|exact H].
Qed.

Lemma scan_crashing a rest : crashing a -> exists k f ops, scan (a :: rest) = (repeat (Opt 118 None) k ++ Opt 101 None :: f, ops).
Proof.
  intros [k t]. assert (classify (dash :: vs k ++ bytes "e" ++ t) = prepend (repeat (Opt 118 None) k) (cluster (bytes "e" ++ t))) as Hc.
  { rewrite classify_cluster; [apply cluster_vs|]. intros _. split; discriminate. }
  exists k. cbn [scan]. rewrite Hc. destruct (cluster_not t) as [N1 N2].
  assert (exists w, cluster (bytes "e" ++ t) = w /\ ((exists l, w = Complete (Opt 101 None :: l)) \/ exists l d, w = Wants (Opt 101 None :: l) d)) as (w & -> & Hw).
  { eexists. split; [reflexivity|]. change (bytes "e" ++ t) with (101 :: t). cbn [cluster]. change (short 101) with (Some NoArg). cbv iota.
    destruct (cluster t); try congruence; eauto. }
  destruct Hw as [(l & ->)|(l & d & ->)]; cbn [prepend].
  - destruct (scan rest) as [f ops]. eexists _, _. rewrite <- app_assoc. reflexivity.
  - destruct rest as [|v rest']; [|destruct (scan rest') as [f ops]]; eexists _, _; rewrite <- app_assoc; reflexivity.
Qed.
Lemma scan_wrong a rest : wrong a rest -> exists k f ops, scan (a :: rest) = (repeat (Opt 118 None) k ++ Bad :: f, ops).
Proof.
  intros [k c t r Hc Hk|n v r Hne Hn Hno Hv|n x r Ha|k|n name Ha Hname].
  - assert (classify (dash :: vs k ++ c :: t) = Complete (repeat (Opt 118 None) k ++ [Bad])) as Hcl.
    { rewrite classify_cluster; [|intros E; split; [discriminate|exact (Hk E)]]. rewrite cluster_vs. cbn [cluster].
      assert (short c = None) as ->; [|reflexivity]. unfold short.
      assert (c <> 118 /\ c <> 98 /\ c <> 115 /\ c <> 101) as (H1 & H2 & H3 & H4) by (repeat split; intros ->; apply Hc; cbn; auto 9).
      replace (c =? 98) with false by lia. replace (c =? 101) with false by lia. replace (c =? 115) with false by lia.
      replace (c =? 118) with false by lia. reflexivity. }
    exists k. cbn [scan]. rewrite Hcl. destruct (scan r) as [f ops]. eexists _, _. rewrite <- app_assoc. reflexivity.
  - assert (classify (dash :: dash :: n ++ v) = Complete [Bad]) as Hcl.
    { unfold classify. change (dash =? 45) with true. cbv iota.
      destruct (n ++ v) as [|x s] eqn:E.
      { apply app_eq_nil in E. destruct E as [-> ->]. now destruct (Hn eq_refl). }
      rewrite <- E. unfold long.
      assert (exists o, split_eq (n ++ v) = (n, o)) as (o & ->).
      { destruct Hv as [->|(y & ->)]; [rewrite app_nil_r; eexists; now apply split_no|eexists; now apply split_yes]. }
      destruct (lookup n) as [[k c]|] eqn:El; [|reflexivity]. apply lookup_abbreviates in El. destruct El as (name & Ha & _). now destruct (Hno name). }
    exists 0%nat. cbn [scan]. rewrite Hcl. destruct (scan r) as [f ops]. eexists _, _. reflexivity.
  - destruct (abbrev_clean _ _ Ha) as [Hc Hn].
    assert (classify (dash :: dash :: n ++ equals :: x) = Complete [Bad]) as Hcl.
    { unfold classify. change (dash =? 45) with true. cbv iota. destruct (n ++ equals :: x) as [|y s] eqn:E; [destruct n; discriminate|].
      rewrite <- E. unfold long. rewrite split_yes by exact Hc. rewrite (lookup_name _ _ Ha). vm_compute (val_of (bytes "verbose")). reflexivity. }
    exists 0%nat. cbn [scan]. rewrite Hcl. destruct (scan r) as [f ops]. eexists _, _. reflexivity.
  - assert (classify (dash :: vs k ++ bytes "b") = Wants (repeat (Opt 118 None) k) 98) as Hcl.
    { rewrite classify_cluster; [|intros _; split; discriminate]. rewrite cluster_vs. change (cluster (bytes "b")) with (Wants [] 98).
      cbn [prepend]. now rewrite app_nil_r. }
    exists k. cbn [scan]. rewrite Hcl. eexists _, _. reflexivity.
  - destruct (abbrev_clean _ _ Ha) as [Hc Hn].
    assert (exists c, classify (dash :: dash :: n) = Wants [] c) as (c & Hcl).
    { unfold classify. change (dash =? 45) with true. cbv iota. destruct n as [|y s] eqn:E; [congruence|].
      rewrite <- E in *. unfold long. rewrite split_no by exact Hc. rewrite (lookup_name _ _ Ha). destruct Ha as [Hin _].
      cbn [names In] in Hin. destruct Hin as [<-|[<-|[<-|[<-|[<-|[<-|[]]]]]]]; try (eexists; vm_compute; reflexivity). congruence. }
    exists 0%nat. cbn [scan]. rewrite Hcl. eexists _, _. reflexivity.
Qed.
Lemma apply_vs k : forall s more, apply_opts s (repeat (Opt 118 None) k ++ more) = apply_opts (meant_from s (repeat Verbose k)) more.
Proof. intros s more. rewrite <- founds_vs. apply apply_founds. Qed.

Lemma parse_crashing l ws a rest : line l ws -> crashing a -> parse (ws ++ a :: rest) = Crashes.
Proof.
  intros Hl Ha. unfold parse. rewrite (scan_line _ _ Hl). destruct (scan_crashing a rest Ha) as (k & f & ops & ->). cbn [fst snd].
  rewrite apply_founds, apply_vs. reflexivity.
Qed.
Lemma parse_wrong l ws a rest : line l ws -> wrong a rest -> parse (ws ++ a :: rest) = Leaves.
Proof.
  intros Hl Ha. unfold parse. rewrite (scan_line _ _ Hl). destruct (scan_wrong a rest Ha) as (k & f & ops & ->). cbn [fst snd].
  rewrite apply_founds, apply_vs. reflexivity.
Qed.

(** Nothing else is accepted. *)
Theorem C77_only args s ops : parse args = Goes s ops ->
  exists l, command l args /\ s = meant l /\ ops = operands l /\ ops <> [].
Proof.
  intros H. destruct (total (length args) args (le_n _)) as [(l & Hc)|(l & ws & a & rest & Hl & -> & [Hx|Hx])].
  - rewrite (C77_parsed _ _ Hc) in H. destruct (operands l) as [|o t] eqn:E; [discriminate|]. injection H as <- <-.
    exists l. rewrite E. repeat split; [exact Hc|discriminate].
  - rewrite (parse_crashing _ _ _ _ Hl Hx) in H. discriminate.
  - rewrite (parse_wrong _ _ _ _ Hl Hx) in H. discriminate.
Qed.
(** The daemon leaves exactly for want of an operand or at a wrong word ... *)
Theorem C77_leaves args : parse args = Leaves <->
  (exists l, command l args /\ operands l = []) \/ (exists l ws a rest, line l ws /\ args = ws ++ a :: rest /\ wrong a rest).
Proof.
  split.
  - intros H. destruct (total (length args) args (le_n _)) as [(l & Hc)|(l & ws & a & rest & Hl & -> & [Hx|Hx])].
    + left. exists l. split; [exact Hc|]. rewrite (C77_parsed _ _ Hc) in H. destruct (operands l); [reflexivity|discriminate].
    + rewrite (parse_crashing _ _ _ _ Hl Hx) in H. discriminate.
    + right. eauto 8.
  - intros [(l & Hc & Ho)|(l & ws & a & rest & Hl & -> & Hx)].
    + rewrite (C77_parsed _ _ Hc), Ho. reflexivity.
    + exact (parse_wrong _ _ _ _ Hl Hx).
Qed.
(** ... and dereferences NULL exactly at a word of short options with e after any number of v:
    the option string has no colon after e. *)
Theorem C77_crashes args : parse args = Crashes <-> exists l ws a rest, line l ws /\ args = ws ++ a :: rest /\ crashing a.
Proof.
  split.
  - intros H. destruct (total (length args) args (le_n _)) as [(l & Hc)|(l & ws & a & rest & Hl & -> & [Hx|Hx])].
    + rewrite (C77_parsed _ _ Hc) in H. destruct (operands l); discriminate.
    + eauto 8.
    + rewrite (parse_wrong _ _ _ _ Hl Hx) in H. discriminate.
  - intros (l & ws & a & rest & Hl & -> & Hx). exact (parse_crashing _ _ _ _ Hl Hx).
Qed.

(** ** The EID *)

(** The number that decimal digits write. *)
Definition numeral (ds : str) : Z := fold_left (fun n c => 10 * n + (c - 48)) ds 0.
Definition digit (c : Z) : Prop := 48 <= c <= 57.
Definition white (c : Z) : Prop := c = 32 \/ 9 <= c <= 13.
(** [t] does not begin with a digit. *)
Definition ends (t : str) : Prop := forall c t', t = c :: t' -> ~ digit c.
Lemma digits_numeral ds junk : Forall digit ds -> ends junk -> forall n,
  digits (ds ++ junk) n = fold_left (fun n c => 10 * n + (c - 48)) ds n.
Proof.
  intros Hd Hj. induction Hd as [|c ds Hc Hd IH]; intros n.
  - cbn [fold_left Datatypes.app]. destruct junk as [|c t]; [reflexivity|]. cbn [digits]. specialize (Hj c t eq_refl).
    unfold digit in Hj. unfold is_digit. replace ((48 <=? c) && (c <=? 57)) with false by lia. reflexivity.
  - cbn [digits fold_left Datatypes.app]. unfold is_digit, digit in *.
    replace ((48 <=? c) && (c <=? 57)) with true by lia. apply IH.
Qed.
Lemma numeral_pos ds : Forall digit ds -> 0 <= numeral ds.
Proof.
  intros H. assert (forall n, 0 <= n -> 0 <= fold_left (fun n c => 10 * n + (c - 48)) ds n) as G.
  { induction H as [|c ds Hc Hd IH]; intros n Hn; cbn [fold_left]; [exact Hn|]. apply IH. unfold digit in Hc. lia. }
  apply G. lia.
Qed.
Lemma skip_white sp t : Forall white sp -> (forall c t', t = c :: t' -> ~ white c) -> skip_space (sp ++ t) = t.
Proof.
  intros Hs Ht. induction Hs as [|c sp Hc Hs IH]; cbn [Datatypes.app].
  - destruct t as [|c t]; [reflexivity|]. cbn [skip_space]. specialize (Ht c t eq_refl). unfold white in Ht. unfold is_space.
    replace ((c =? 32) || (9 <=? c) && (c <=? 13)) with false by lia. reflexivity.
  - cbn [skip_space]. unfold white in Hc. unfold is_space.
    replace ((c =? 32) || (9 <=? c) && (c <=? 13)) with true by lia. exact IH.
Qed.
(** A numeral, perhaps after white space and a sign and before anything else, gives the
    number it writes if that fits an int; the bus gets the number modulo 256, and 255 or 0
    beyond the range of a long. *)
Theorem C77_eid sp sg ds junk : Forall white sp -> In sg [[]; bytes "+"; bytes "-"] -> ds <> [] -> Forall digit ds -> ends junk ->
  let v := if list_eq_dec Z.eq_dec sg (bytes "-") then - numeral ds else numeral ds in
  (- 2 ^ 31 <= v < 2 ^ 31 -> atoi (sp ++ sg ++ ds ++ junk) = v) /\
  atoi (sp ++ sg ++ ds ++ junk) mod 256 = if v <? - 2 ^ 63 then 0 else if v <? 2 ^ 63 then v mod 256 else 255.
Proof.
  intros Hsp Hsg Hne Hd Hj v. pose proof (numeral_pos ds Hd) as Hp.
  assert (strtol (sp ++ sg ++ ds ++ junk) = Z.max (- 2 ^ 63) (Z.min (2 ^ 63 - 1) v)) as Hs.
  { unfold strtol. rewrite skip_white; [|exact Hsp|].
    - assert (digits (ds ++ junk) 0 = numeral ds) as E by (apply digits_numeral; assumption).
      destruct Hsg as [<-|[<-|[<-|[]]]]; unfold v; cbn [list_eq_dec Datatypes.app].
      + destruct ds as [|c ds]; [congruence|]. assert (digit c) as Hc by (inversion_clear Hd; assumption). unfold digit in Hc.
        cbn [Datatypes.app] in *. replace (c =? 45) with false by lia. replace (c =? 43) with false by lia. rewrite E. reflexivity.
      + change (bytes "+") with [43]. cbn [Datatypes.app Z.eqb Pos.eqb]. rewrite E. reflexivity.
      + change (bytes "-") with [45]. cbn [Datatypes.app Z.eqb Pos.eqb]. rewrite E. reflexivity.
    - intros c t' Et Hw. unfold white in Hw. destruct Hsg as [<-|[<-|[<-|[]]]].
      + destruct ds as [|x ds]; [congruence|]. cbn in Et. injection Et as -> _. inversion_clear Hd. unfold digit in *. lia.
      + cbn in Et. injection Et as <- _. lia.
      + cbn in Et. injection Et as <- _. lia. }
  unfold atoi, to_int. rewrite Hs. clearbody v. split.
  - intros H. rewrite Z.min_r by lia. rewrite Z.max_r by lia. rewrite Z.mod_small by lia. lia.
  - destruct (Z.ltb_spec v (- 2 ^ 63)) as [H|H]; [|destruct (Z.ltb_spec v (2 ^ 63)) as [H'|H']].
    + rewrite Z.max_l by lia. reflexivity.
    + rewrite Z.min_r by lia. rewrite Z.max_r by lia. rewrite Zminus_mod.
      rewrite <- (Znumtheory.Zmod_div_mod 256 (2 ^ 32)); [|lia|lia|exists (2 ^ 24); lia].
      rewrite <- Zminus_mod. f_equal. lia.
    + rewrite Z.min_l by lia. reflexivity.
Qed.
(** A word in which no numeral follows is 0. *)
Theorem C77_no_eid sp sg junk : Forall white sp -> In sg [[]; bytes "+"; bytes "-"] -> ends junk ->
  (sg = [] -> forall c t, junk = c :: t -> ~ white c /\ ~ In c (bytes "+-")) ->
  atoi (sp ++ sg ++ junk) = 0.
Proof.
  intros Hsp Hsg Hj Hn. unfold atoi. assert (digits junk 0 = 0) as E by (apply (digits_numeral [] junk); [constructor|exact Hj]).
  unfold strtol. rewrite skip_white; [|exact Hsp|].
  - destruct Hsg as [<-|[<-|[<-|[]]]].
    + cbn [Datatypes.app]. destruct junk as [|c t]; [reflexivity|]. destruct (Hn eq_refl c t eq_refl) as [_ H].
      replace (c =? 45) with false by (apply eq_sym, Z.eqb_neq; intros ->; apply H; cbn; auto).
      replace (c =? 43) with false by (apply eq_sym, Z.eqb_neq; intros ->; apply H; cbn; auto). rewrite E. reflexivity.
    + change (bytes "+") with [43]. cbn [Datatypes.app Z.eqb Pos.eqb]. rewrite E. reflexivity.
    + change (bytes "-") with [45]. cbn [Datatypes.app Z.eqb Pos.eqb]. rewrite E. reflexivity.
  - intros c t Et. destruct Hsg as [<-|[<-|[<-|[]]]].
    + cbn in Et. exact (proj1 (Hn eq_refl _ _ Et)).
    + cbn in Et. injection Et as <- _. unfold white. lia.
    + cbn in Et. injection Et as <- _. unfold white. lia.
Qed.

(** The names of the bindings. *)
Theorem C77_bindings name k : binding_lookup name = Some k <->
  (name = bytes "null" /\ k = KNull) \/ (name = bytes "serial" /\ k = KSerial) \/ (name = bytes "astlpc" /\ k = KAstlpc).
Proof.
  unfold binding_lookup. split.
  - destruct (str_eqb name (bytes "null")) eqn:E1; [apply str_eqb_eq in E1; intros [= <-]; auto|].
    destruct (str_eqb name (bytes "serial")) eqn:E2; [apply str_eqb_eq in E2; intros [= <-]; auto|].
    destruct (str_eqb name (bytes "astlpc")) eqn:E3; [apply str_eqb_eq in E3; intros [= <-]; auto|discriminate].
  - intros [[-> ->]|[[-> ->]|[-> ->]]]; reflexivity.
Qed.

(** ** The program *)

(** A command line that is understood starts the daemon with what it means: everything C74
    says about the start holds with these options; the EID on the bus is the number given
    modulo 256. *)
Theorem C77_started l args name params tr rc : command l args -> operands l = name :: params ->
  PropStartup.exec (program args) tr rc ->
  main_ok (mkOpts (last_of eid_of 8 l mod 256) (last_of binding_of None l) (last_of socket_of None l)
             (binding_lookup name) params) rc tr.
Proof.
  intros Hc Ho He. unfold program in He. rewrite (C77_parsed _ _ Hc), Ho in He. exact (C74_main _ _ _ He).
Qed.
(** Any other command line makes no call at all: exit status 1, or the crash. *)
Theorem C77_refused args tr rc : (forall s ops, parse args <> Goes s ops) ->
  PropStartup.exec (program args) tr rc -> tr = [] /\ rc = 1.
Proof.
  intros Hn He. unfold program in He. destruct (parse args) as [| |s ops] eqn:E.
  - exact He.
  - destruct He as (a & _). destruct a.
  - now destruct (Hn s ops).
Qed.
(** The program dereferences NULL before its first call exactly when a word crashes it. *)
Theorem C77_fault args tr : (exists l ws a rest, line l ws /\ args = ws ++ a :: rest /\ crashing a) ->
  (PropStartup.faults (program args) tr <-> tr = []) /\ forall tr' rc, ~ PropStartup.exec (program args) tr' rc.
Proof.
  intros H. apply C77_crashes in H. unfold program. rewrite H. split; [cbn; tauto|].
  intros tr' rc (a & _). destruct a.
Qed.

(** ** The EID that is too large *)
Lemma exec_allowed {A} (p : Daemon.prog A) : forall tr r, Daemon.exec p tr r ->
  forall e, In e tr -> match e with Daemon.Ev c a => Daemon.allowed c a end.
Proof.
  induction p as [a| |c k IH]; cbn; intros tr r He e Hin.
  - destruct He as [-> _]. destruct Hin.
  - contradiction.
  - destruct He as (a & t & -> & Ha & He). destruct Hin as [<-|Hin]; [exact Ha|]. eapply IH; eauto.
Qed.

(** The daemon compares a client's destination with the number as it was given, the bus has
    it modulo 256: started with a number outside 0..255, it never, over any run, gives a
    message of a client to its own clients, not even one for the EID the bus has; it hands
    every one to the bus.  What its clients get is what the bus delivered. *)
Theorem C77_no_loopback s n tr r : ~ (0 <= s_eid s < 256) -> Daemon.exec (Daemon.run_daemon n (running s) false) tr r ->
  (forall fd bs, In (fd, bs) (sends tr) -> delivered tr bs) /\
  txs tr = flat_map (fun bs => match bs with [] => [] | eid :: msg => [(eid, true, 0, msg)] end) (received tr).
Proof.
  intros Hs He.
  assert (forall bs, In bs (received tr) -> Forall is_byte bs) as Hb.
  { intros bs Hin. unfold received in Hin. apply in_flat_map in Hin. destruct Hin as ([c a] & Hin & Hb).
    pose proof (exec_allowed _ _ _ He _ Hin) as Ha. destruct c; cbn in Hb; try contradiction.
    destruct a as [l|]; cbn in Hb; [|contradiction]. destruct Hb as [<-|[]]. exact (proj2 Ha). }
  split.
  - intros fd bs Hin. destruct (C44_origin _ _ _ _ _ He _ _ Hin) as (Hl & [Hd|[Hr Hh]]); [exact Hd|]. exfalso. apply Hs.
    specialize (Hb _ Hr). rewrite <- Hh. destruct bs as [|b bs]; [cbn in Hl; lia|]. inversion_clear Hb as [|? ? Hc _]. exact Hc.
  - rewrite (C52_transmits _ _ _ _ _ He). revert Hb. generalize (received tr). intros l Hb. induction l as [|bs l IH]; [reflexivity|].
    cbn [flat_map]. rewrite IH by (intros; apply Hb; now right). f_equal. destruct bs as [|b bs]; [reflexivity|]. cbn [outgoing].
    assert (Forall is_byte (b :: bs)) as Hc by (apply Hb; now left). inversion_clear Hc as [|? ? Hd _]. unfold is_byte in Hd.
    replace (b =? s_eid s) with false by lia. reflexivity.
Qed.

(** ** Cases *)

(** mctp-demux-daemon --capture-b=a.pcap serial -vsb.pcap --eid 264 /dev/ttyS0 *)
Definition demo_args : list str :=
  [bytes "--capture-b=a.pcap"; bytes "serial"; bytes "-vsb.pcap"; bytes "--eid"; bytes "264"; bytes "/dev/ttyS0"].
Example C77_case :
  command [CapBinding (bytes "a.pcap"); Operandw (bytes "serial"); Verbose; CapSocket (Some (bytes "b.pcap"));
           Eid (bytes "264"); Operandw (bytes "/dev/ttyS0")] demo_args /\
  parse demo_args = Goes (mkSet 264 (Some (bytes "a.pcap")) (Some (bytes "b.pcap")) true) [bytes "serial"; bytes "/dev/ttyS0"] /\
  o_eid (main_opts (mkSet 264 None None true) (bytes "serial") [bytes "/dev/ttyS0"]) = 8.
Proof.
  split; [|split; reflexivity].
  assert (abbreviates (bytes "capture-b") (bytes "capture-binding")) as Ha.
  { split; [cbn; auto|]. right. split; [exists (bytes "inding"); reflexivity|]. intros m Hm Hb. apply prefixb_begins in Hb.
    cbn [names In] in Hm. repeat (destruct Hm as [<-|Hm]; [vm_compute in Hb; try discriminate; reflexivity|]). destruct Hm. }
  apply CPlain.
  apply (LMore [_] [_]); [apply (SLongEq (bytes "capture-binding") (bytes "capture-b") (bytes "a.pcap")); [exact Ha|right; left; auto]|].
  apply (LMore [_] [_]); [apply SWord; discriminate|].
  apply (LMore [_; _] [_]); [apply (SSocket 1 (bytes "b.pcap")); discriminate|].
  apply (LMore [_] [_; _]); [apply (SLongSep (bytes "eid") (bytes "eid") (bytes "264")); [split; [cbn; auto 9|now left]|left; auto]|].
  apply (LMore [_] [_]); [apply SWord; discriminate|]. apply LNil.
Qed.
(** The path after a separate -s is taken for the binding; -e crashes; an ambiguous
    abbreviation is refused. *)
Theorem C77_surprises path rest :
  (forall t, path <> dash :: t) ->
  parse [bytes "-s"; path; bytes "serial"; bytes "/dev/ttyS0"] =
    Goes defaults [path; bytes "serial"; bytes "/dev/ttyS0"] /\
  parse (bytes "-e" :: rest) = Crashes /\ parse (bytes "-e9" :: rest) = Crashes /\
  parse (bytes "--capture" :: rest) = Leaves.
Proof.
  intros Hp. split; [|split; [|split]].
  - rewrite (C77_parsed ([CapSocket None] ++ [Operandw path] ++ [Operandw (bytes "serial")] ++ [Operandw (bytes "/dev/ttyS0")] ++ [])); [reflexivity|].
    apply CPlain. cbn [map Datatypes.app].
    apply (LMore [_] [_]); [apply (SNoSocket 0)|]. apply (LMore [_] [_]); [now apply SWord|].
    apply (LMore [_] [_]); [apply SWord; discriminate|]. apply (LMore [_] [_]); [apply SWord; discriminate|]. apply LNil.
  - apply (parse_crashing [] [] (bytes "-e") rest LNil). apply (CrEid 0 []).
  - apply (parse_crashing [] [] (bytes "-e9") rest LNil). apply (CrEid 0 (bytes "9")).
  - apply (parse_wrong [] [] (bytes "--capture") rest LNil). change (bytes "--capture") with (dash :: dash :: bytes "capture" ++ []).
    apply WLong; [|discriminate| |now left].
    + intros H. cbn in H. repeat (destruct H as [H|H]; [discriminate|]). exact H.
    + intros name [Hin [E|[Hb Hu]]].
      * subst name. cbn [names In] in Hin. repeat (destruct Hin as [Hin|Hin]; [discriminate|]). exact Hin.
      * assert (bytes "capture-binding" = name) as E1 by (apply Hu; [cbn; auto|exists (bytes "-binding"); reflexivity]).
        assert (bytes "capture-socket" = name) as E2 by (apply Hu; [cbn; auto|exists (bytes "-socket"); reflexivity]).
        rewrite <- E1 in E2. discriminate.
Qed.

(** Two daemons, one started with --eid 8 and one with --eid 264: both have EID 8 on the bus.
    A client that announced type 5 sends a message to EID 8: the first loops it back, the
    second hands it to the bus. *)
Definition to_eight : DaemonBugs.oracle := fun n c =>
  match c return Daemon.answer c with
  | Daemon.CClose _ => tt | Daemon.CSend _ bs => zlen bs | Daemon.CRead1 _ => inl 5 | Daemon.CPeek _ => 3
  | Daemon.CGrow _ => true | Daemon.CRecv _ _ => Some [8; 5; 1] | Daemon.CCapture _ _ => tt | Daemon.CTx _ _ _ _ => 0
  | Daemon.CAccept => 4
  | Daemon.CPoll fds => Some (Daemon.Ready false false (Nat.eqb n 0) (map (fun _ => true) fds))
  | Daemon.CProcess => ([], 0)
  | Daemon.CUninit => false
  end.
Definition three_fit (c : Daemon.call) : Prop := match c with Daemon.CRecv _ n => 3 <= n | _ => True end.
Example C77_loopback_case :
  (exists tr r, Daemon.exec (Daemon.run_daemon 3 (running (mkSet 264 None None false)) false) tr r /\
     received tr = [[8; 5; 1]] /\ sends tr = [] /\ txs tr = [(8, true, 0, [5; 1])]) /\
  (exists tr r, Daemon.exec (Daemon.run_daemon 3 (running (mkSet 8 None None false)) false) tr r /\
     received tr = [[8; 5; 1]] /\ sends tr = [(4, [8; 5; 1])] /\ txs tr = []).
Proof.
  assert (forall e, match DaemonBugs.play to_eight 0 (Daemon.run_daemon 3 (running (mkSet e None None false)) false) with
                    | Some (tr, r) => Forall (fun v => match v with Daemon.Ev c _ => three_fit c end) tr ->
                        Daemon.exec (Daemon.run_daemon 3 (running (mkSet e None None false)) false) tr r
                    | None => True end) as H.
  { intros e. generalize (Daemon.run_daemon 3 (running (mkSet e None None false)) false). intros p. generalize 0%nat.
    induction p as [a| |c k IH]; intros n; cbn [DaemonBugs.play]; [intros _; split; reflexivity|exact I|].
    specialize (IH (to_eight n c) (S n)). destruct (DaemonBugs.play to_eight (S n) (k (to_eight n c))) as [[t r]|]; [|exact I].
    intros Hf. inversion_clear Hf as [|? ? Hc Ht]. cbn [Daemon.exec]. exists (to_eight n c), t. split; [reflexivity|]. split; [|exact (IH Ht)].
    destruct c; cbn in *; try exact I; try lia.
    - unfold is_byte; lia.
    - split; [exact Hc|]. repeat constructor; unfold is_byte; lia.
    - apply map_length.
    - constructor. }
  split.
  - specialize (H 264). destruct (DaemonBugs.play _ _ _) as [[tr r]|] eqn:E; [|vm_compute in E; discriminate].
    vm_compute in E. injection E as <- <-. eexists _, _. split; [apply H; repeat constructor; cbn; lia|]. repeat split.
  - specialize (H 8). destruct (DaemonBugs.play _ _ _) as [[tr r]|] eqn:E; [|vm_compute in E; discriminate].
    vm_compute in E. injection E as <- <-. eexists _, _. split; [apply H; repeat constructor; cbn; lia|]. repeat split.
Qed.
