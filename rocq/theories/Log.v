(** Log: log.c, and C78.

    A message is its level and its text (what vfprintf makes of format and arguments).  The
    two build options are parameters: [stdio] is MCTP_HAVE_STDIO, [syslog] MCTP_HAVE_SYSLOG. *)
From Verif Require Import Base Options PropOptions.

(** ** Model *)

(** log.c 19-24 log_type, with 26 log_stdio_level and 27 log_custom_fn; a custom function is
    named by a number, [None] is NULL *)
Inductive log_type := LNone | LStdio | LSyslog | LCustom.
Record log := mkLog { l_type : log_type; l_level : Z; l_fn : option Z }.
(** log.c 24-27: the initial values *)
Definition log0 : log := mkLog LNone 0 None.
(** log.c 62-66 mctp_set_log_stdio *)
Definition set_stdio (l : log) (level : Z) : log := mkLog LStdio level (l_fn l).
(** log.c 68-71 mctp_set_log_syslog *)
Definition set_syslog (l : log) : log := mkLog LSyslog (l_level l) (l_fn l).
(** log.c 73-77 mctp_set_log_custom *)
Definition set_custom (l : log) (fn : option Z) : log := mkLog LCustom (l_level l) fn.

Section Build.
Variables stdio syslog : bool.
(** What is written or called. *)
Inductive out := OStderr (text : list Z) | OSyslog (level : Z) (text : list Z) | OCall (fn level : Z) (text : list Z) | OCrash.
(** log.c 29-60 mctp_prlog; on standard error the text is followed by a newline *)
Definition prlog (l : log) (level : Z) (text : list Z) : list out :=
  match l_type l with
  | LNone => []
  | LStdio => if stdio then if level <=? l_level l then [OStderr (text ++ [10])] else [] else []
  | LSyslog => if syslog then [OSyslog level text] else []
  | LCustom => match l_fn l with Some f => [OCall f level text] | None => [OCrash] end
  end.

(** Calls of the API and of mctp_prlog, in any order. *)
Inductive lop := SetStdio (level : Z) | SetSyslog | SetCustom (fn : option Z) | Say (level : Z) (text : list Z).
Fixpoint exec (l : log) (h : list lop) : list out :=
  match h with
  | [] => []
  | SetStdio v :: t => exec (set_stdio l v) t
  | SetSyslog :: t => exec (set_syslog l) t
  | SetCustom f :: t => exec (set_custom l f) t
  | Say v x :: t => prlog l v x ++ exec l t
  end.

(** ** Specification: what becomes of a message, given the calls before it *)
Definition is_setting (o : lop) : Prop := match o with Say _ _ => False | _ => True end.
(** [o] is the last setting in [h]. *)
Definition latest (h : list lop) (o : lop) : Prop :=
  is_setting o /\ exists a b, h = a ++ o :: b /\ Forall (fun x => ~ is_setting x) b.
(** What a message with level [v] and text [x] gives after [h]. *)
Inductive gives (h : list lop) (v : Z) (x : list Z) : list out -> Prop :=
| GSilent : Forall (fun o => ~ is_setting o) h -> gives h v x []
| GStderr m : latest h (SetStdio m) -> stdio = true -> v <= m -> gives h v x [OStderr (x ++ [10])]
| GAbove m : latest h (SetStdio m) -> m < v -> gives h v x []
| GNoStdio m : latest h (SetStdio m) -> stdio = false -> gives h v x []
| GSyslog : latest h SetSyslog -> syslog = true -> gives h v x [OSyslog v x]
| GNoSyslog : latest h SetSyslog -> syslog = false -> gives h v x []
| GCall f : latest h (SetCustom (Some f)) -> gives h v x [OCall f v x]
| GNull : latest h (SetCustom None) -> gives h v x [OCrash].
(** [says pre h outs]: the messages of [h], after [pre], give [outs] in order. *)
Inductive says : list lop -> list lop -> list out -> Prop :=
| YNil pre : says pre [] []
| YSet pre o h outs : is_setting o -> says (pre ++ [o]) h outs -> says pre (o :: h) outs
| YSay pre v x h a outs : gives pre v x a -> says (pre ++ [Say v x]) h outs -> says pre (Say v x :: h) (a ++ outs).

(** ** Proof *)
Definition fits (pre : list lop) (l : log) : Prop :=
  match l_type l with
  | LNone => Forall (fun o => ~ is_setting o) pre
  | LStdio => latest pre (SetStdio (l_level l))
  | LSyslog => latest pre SetSyslog
  | LCustom => latest pre (SetCustom (l_fn l))
  end.
Lemma latest_new pre o : is_setting o -> latest (pre ++ [o]) o.
Proof. intros H. split; [exact H|]. exists pre, []. auto. Qed.
Lemma latest_say pre o v x : latest pre o -> latest (pre ++ [Say v x]) o.
Proof.
  intros [H (a & b & -> & Hb)]. split; [exact H|]. exists a, (b ++ [Say v x]). rewrite <- app_assoc. split; [reflexivity|].
  apply Forall_app. split; [exact Hb|]. constructor; [cbn; auto|constructor].
Qed.
Lemma fits_say pre l v x : fits pre l -> fits (pre ++ [Say v x]) l.
Proof.
  unfold fits. destruct (l_type l); auto using latest_say. intros H. apply Forall_app. split; [exact H|].
  constructor; [cbn; auto|constructor].
Qed.
Lemma exec_says h : forall pre l, fits pre l -> says pre h (exec l h).
Proof.
  induction h as [|o h IH]; intros pre l Hf; [constructor|]. destruct o as [m| |f|v x]; cbn [exec].
  - apply YSet; [exact I|]. apply IH. apply latest_new. exact I.
  - apply YSet; [exact I|]. apply IH. apply latest_new. exact I.
  - apply YSet; [exact I|]. apply IH. apply latest_new. exact I.
  - apply YSay; [|apply IH, fits_say, Hf]. unfold fits in Hf. unfold prlog. destruct (l_type l).
    + now constructor.
    + destruct stdio eqn:Es; [|now apply GNoStdio with (l_level l)]. destruct (Z.leb_spec v (l_level l)).
      * now apply GStderr with (l_level l).
      * apply GAbove with (l_level l); auto; lia.
    + destruct syslog eqn:Es; [apply GSyslog|apply GNoSyslog]; auto.
    + destruct (l_fn l); constructor; auto.
Qed.
Theorem C78_log h : says [] h (exec log0 h).
Proof. apply exec_says. unfold fits. cbn. constructor. Qed.

(** The specification determines the output: a message has one fate. *)
Lemma latest_fun h o o' : latest h o -> latest h o' -> o = o'.
Proof.
  intros [Ho (a & b & E & Hb)] [Ho' (a' & b' & E' & Hb')]. subst h. revert a' E'.
  induction a as [|y a IH]; intros a' E'.
  - destruct a' as [|z a']; [now injection E'|]. exfalso. injection E' as <- E'. rewrite E' in Hb. rewrite Forall_forall in Hb.
    apply (Hb o'); [apply in_or_app; right; now left|exact Ho'].
  - destruct a' as [|z a'].
    + exfalso. injection E' as <- E'. rewrite <- E' in Hb'. rewrite Forall_forall in Hb'.
      apply (Hb' o); [apply in_or_app; right; now left|exact Ho].
    + injection E' as _ E'. exact (IH _ E').
Qed.
Lemma latest_some h o : latest h o -> ~ Forall (fun o => ~ is_setting o) h.
Proof. intros [Ho (a & b & -> & _)] H. rewrite Forall_forall in H. apply (H o); [apply in_or_app; right; now left|exact Ho]. Qed.
Theorem C78_determined pre h outs outs' : says pre h outs -> says pre h outs' -> outs = outs'.
Proof.
  intros H. revert outs'. induction H as [pre|pre o h outs Ho H IH|pre v x h a outs Hg H IH]; intros outs' H'; inversion H'; subst; cbn in *; try contradiction; auto.
  f_equal; auto.
  match goal with A : gives _ _ _ a, B : gives _ _ _ _ |- _ => destruct A; destruct B end;
    try reflexivity;
    try (match goal with A : latest pre ?o, B : latest pre ?o' |- _ => pose proof (latest_fun _ _ _ A B) as E; discriminate E || (injection E; intros; subst) end);
    try congruence; try (exfalso; lia); try (exfalso; eapply latest_some; eassumption); try reflexivity.
Qed.
End Build.

(** Without any call of mctp_set_log_* nothing is written. *)
Theorem C78_silent stdio syslog ms : exec stdio syslog log0 (map (fun m => Say (fst m) (snd m)) ms) = [].
Proof. induction ms as [|m ms IH]; [reflexivity|]. exact IH. Qed.

(** mctp-demux-daemon.c 642: mctp_set_log_stdio(ctx->verbose ? MCTP_LOG_DEBUG : MCTP_LOG_NOTICE);
    libmctp.h: 7 and 5 *)
Definition daemon_log (s : settings) : log := set_stdio log0 (if s_verbose s then 7 else 5).
(** The daemon writes the library's errors and warnings, and with -v or --verbose on its
    command line also its information and debugging messages (levels 3, 4, 6, 7). *)
Theorem C78_daemon l args s ops syslog ms : command l args -> parse args = Goes s ops ->
  exec true syslog (daemon_log s) (map (fun m => Say (fst m) (snd m)) ms) =
  map (fun m => OStderr (snd m ++ [10])) (filter (fun m => fst m <=? (if existsb (fun i => match i with Verbose => true | _ => false end) l then 7 else 5)) ms).
Proof.
  intros Hc Hp. rewrite (C77_parsed _ _ Hc) in Hp. destruct (operands l); [discriminate|]. injection Hp as <- <-.
  assert (s_verbose (meant l) = existsb (fun i => match i with Verbose => true | _ => false end) l) as E.
  { unfold meant. cbn [s_verbose].
    assert (forall b, last_of verbose_of b l = (b || existsb (fun i => match i with Verbose => true | _ => false end) l)%bool) as H.
    { clear. induction l as [|i l IH]; intros b; cbn [last_of existsb]; [now rewrite Bool.orb_false_r|].
      rewrite IH. destruct i; cbn; auto; now rewrite Bool.orb_true_r. }
    rewrite H. reflexivity. }
  unfold daemon_log. rewrite E. generalize (if existsb (fun i => match i with Verbose => true | _ => false end) l then 7 else 5). intros m.
  induction ms as [|[v x] ms IH]; [reflexivity|]. cbn [map exec filter fst snd]. rewrite IH. unfold prlog. cbn [set_stdio l_type l_level].
  destruct (v <=? m); reflexivity.
Qed.

(** Two settings and five messages. *)
Example C78_case :
  exec true true log0 [Say 3 [65]; SetStdio 4; Say 3 [66]; Say 7 [67]; SetCustom (Some 1); Say 7 [68]; SetSyslog; Say 6 [69]] =
  [OStderr [66; 10]; OCall 1 7 [68]; OSyslog 6 [69]].
Proof. reflexivity. Qed.
