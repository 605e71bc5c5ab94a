(** WP: a weakest-precondition calculus for programs, generic in how the effects
    are answered, with its soundness against [run]. *)
From Verif Require Import Base Prog.

Record handler (G : Type) := mkH {
  h_kread : kreg -> G -> (option Z -> G -> Prop) -> Prop;
  h_kwrite : kreg -> Z -> G -> (bool -> G -> Prop) -> Prop;
  h_lread : Z -> Z -> G -> (list Z -> G -> Prop) -> Prop;
  h_lwrite : Z -> list Z -> G -> (G -> Prop) -> Prop;
  h_swrite : list Z -> G -> (Z -> G -> Prop) -> Prop;
  h_alloc : G -> (bool -> G -> Prop) -> Prop;
  h_emit : event -> G -> (G -> Prop) -> Prop }.
Arguments mkH {G}. Arguments h_kread {G}. Arguments h_kwrite {G}. Arguments h_lread {G}.
Arguments h_lwrite {G}. Arguments h_swrite {G}. Arguments h_alloc {G}. Arguments h_emit {G}.

Record hmono {G} (H : handler G) : Prop := mkHmono {
  m_kread : forall r g (Q Q' : _ -> _ -> Prop),
    (forall a b, Q a b -> Q' a b) -> h_kread H r g Q -> h_kread H r g Q';
  m_kwrite : forall r v g (Q Q' : _ -> _ -> Prop),
    (forall a b, Q a b -> Q' a b) -> h_kwrite H r v g Q -> h_kwrite H r v g Q';
  m_lread : forall o n g (Q Q' : _ -> _ -> Prop),
    (forall a b, Q a b -> Q' a b) -> h_lread H o n g Q -> h_lread H o n g Q';
  m_lwrite : forall o bs g (Q Q' : _ -> Prop),
    (forall b, Q b -> Q' b) -> h_lwrite H o bs g Q -> h_lwrite H o bs g Q';
  m_swrite : forall bs g (Q Q' : _ -> _ -> Prop),
    (forall a b, Q a b -> Q' a b) -> h_swrite H bs g Q -> h_swrite H bs g Q';
  m_alloc : forall g (Q Q' : _ -> _ -> Prop),
    (forall a b, Q a b -> Q' a b) -> h_alloc H g Q -> h_alloc H g Q';
  m_emit : forall e g (Q Q' : _ -> Prop),
    (forall b, Q b -> Q' b) -> h_emit H e g Q -> h_emit H e g Q' }.

Fixpoint wp {G A} (H : handler G) (p : prog A) (g : G) (Q : A -> G -> Prop) : Prop :=
  match p with
  | Ret a => Q a g
  | Flt _ => False
  | KRead r k => h_kread H r g (fun v g' => wp H (k v) g' Q)
  | KWrite r v k => h_kwrite H r v g (fun ok g' => wp H (k ok) g' Q)
  | LRead o n k => h_lread H o n g (fun bs g' => wp H (k bs) g' Q)
  | LWrite o bs k => h_lwrite H o bs g (fun g' => wp H k g' Q)
  | SWrite bs k => h_swrite H bs g (fun r g' => wp H (k r) g' Q)
  | Malloc k => h_alloc H g (fun ok g' => wp H (k ok) g' Q)
  | Emit e k => h_emit H e g (fun g' => wp H k g' Q)
  end.

Section Gen.
Context {G : Type} (H : handler G) (Hm : hmono H).

Lemma wp_mono A (p : prog A) : forall g (Q Q' : A -> G -> Prop),
  (forall a g', Q a g' -> Q' a g') -> wp H p g Q -> wp H p g Q'.
Proof.
  induction p as [a|f|r k IH|r v k IH|o n k IH|o bs k IH|bs k IH|k IH|e k IH];
    cbn [wp]; intros g Q Q' HQ Hp; auto.
  - eapply (m_kread H Hm); [|exact Hp]; cbn; eauto.
  - eapply (m_kwrite H Hm); [|exact Hp]; cbn; eauto.
  - eapply (m_lread H Hm); [|exact Hp]; cbn; eauto.
  - eapply (m_lwrite H Hm); [|exact Hp]; cbn; eauto.
  - eapply (m_swrite H Hm); [|exact Hp]; cbn; eauto.
  - eapply (m_alloc H Hm); [|exact Hp]; cbn; eauto.
  - eapply (m_emit H Hm); [|exact Hp]; cbn; eauto.
Qed.

Lemma wp_bind A B (p : prog A) (f : A -> prog B) : forall g (Q : B -> G -> Prop),
  wp H p g (fun a g' => wp H (f a) g' Q) -> wp H (bind p f) g Q.
Proof.
  induction p as [a|f0|r k IH|r v k IH|o n k IH|o bs k IH|bs k IH|k IH|e k IH];
    cbn [wp bind]; intros g Q Hp; auto.
  - eapply (m_kread H Hm); [|exact Hp]; cbn; eauto.
  - eapply (m_kwrite H Hm); [|exact Hp]; cbn; eauto.
  - eapply (m_lread H Hm); [|exact Hp]; cbn; eauto.
  - eapply (m_lwrite H Hm); [|exact Hp]; cbn; eauto.
  - eapply (m_swrite H Hm); [|exact Hp]; cbn; eauto.
  - eapply (m_alloc H Hm); [|exact Hp]; cbn; eauto.
  - eapply (m_emit H Hm); [|exact Hp]; cbn; eauto.
Qed.

(** The usual way to step over a call: a specification of [p] in
    postcondition form and a continuation. *)
Lemma wp_call A B (p : prog A) (f : A -> prog B) g (P : A -> G -> Prop) (Q : B -> G -> Prop) :
  wp H p g P -> (forall a g', P a g' -> wp H (f a) g' Q) -> wp H (bind p f) g Q.
Proof.
  intros Hp HQ. apply wp_bind. eapply wp_mono; [|exact Hp]. exact HQ.
Qed.

Lemma wp_deref A f (o : option A) a g (Q : A -> G -> Prop) :
  o = Some a -> Q a g -> wp H (deref f o) g Q.
Proof. intros ->; exact (fun x => x). Qed.

Lemma wp_deref_bind A B f (o : option A) (k : A -> prog B) a g (Q : B -> G -> Prop) :
  o = Some a -> wp H (k a) g Q -> wp H (bind (deref f o) k) g Q.
Proof. intros ->; exact (fun x => x). Qed.

Lemma wp_assert_bind B b (k : unit -> prog B) g (Q : B -> G -> Prop) :
  b = true -> wp H (k tt) g Q -> wp H (bind (assert_ b) k) g Q.
Proof. intros ->; exact (fun x => x). Qed.
End Gen.

(** ** The adversarial handler: the ghost state is the event trace *)

Definition adv (a : assm) : handler (list event) := mkH
  (fun r g Q => (forall v, is_byte v -> kval_ok a r v = true -> Q (Some v) (g ++ [EvKRead r (Some v)]))
                /\ (may_kerr a = true -> Q None (g ++ [EvKRead r None])))
  (fun r v g Q => Q true (g ++ [EvKWrite r v true])
                /\ (may_kerr a = true -> Q false (g ++ [EvKWrite r v false])))
  (fun o n g Q => in_window o n = true /\
     forall bs, zlen bs = n -> Forall is_byte bs -> Q bs (g ++ [EvLRead o bs]))
  (fun o bs g Q => in_window o (zlen bs) = true /\ Q (g ++ [EvLWrite o bs]))
  (fun bs g Q => forall r, r <= zlen bs -> (may_stall a = false -> bs <> [] -> r <> 0) ->
                 Q r (g ++ [EvSWrite bs r]))
  (fun g Q => Q true g /\ (may_oom a = true -> Q false g))
  (fun e g Q => Q (g ++ [e])).

Lemma adv_mono a : hmono (adv a).
Proof. constructor; cbn; intros; firstorder. Qed.

Lemma mem_bytes_zlen m off len : 0 <= len -> zlen (mem_bytes m off len) = len.
Proof. intros Hl. unfold zlen, mem_bytes. rewrite map_length, seq_length. lia. Qed.

Lemma mem_bytes_byte m off len : Forall is_byte (mem_bytes m off len).
Proof.
  unfold mem_bytes. apply Forall_forall. intros x Hx. apply in_map_iff in Hx.
  destruct Hx as [n [<- _]]. unfold is_byte. apply Z.mod_pos_bound. lia.
Qed.

Lemma zlen_nonneg A (l : list A) : 0 <= zlen l.
Proof. unfold zlen; lia. Qed.

(** Soundness: a weakest precondition against [adv a] holds in every environment
    that [a] allows. *)
Lemma adv_sound a A (p : prog A) : forall e n tr Q,
  env_ok a e -> wp (adv a) p tr Q ->
  exists x n' tr', run e n tr p = Done x n' tr' /\ Q x tr'.
Proof.
  induction p as [x|f|r k IH|r v k IH|o len k IH|o bs k IH|bs k IH|k IH|ev k IH];
    cbn [wp run]; intros e n tr Q He Hp.
  - eauto.
  - contradiction.
  - cbn [h_kread adv] in Hp. destruct Hp as [Hs Hn].
    destruct (kread_val (e_kread e n r)) as [v|] eqn:Ev.
    + apply IH; [exact He|]. apply Hs.
      * unfold kread_val in Ev. destruct (e_kread e n r); inversion Ev; subst.
        unfold is_byte. apply Z.mod_pos_bound. lia.
      * destruct He as [_ [_ [Hk _]]]. eapply Hk; exact Ev.
    + apply IH; [exact He|]. apply Hn.
      destruct (may_kerr a) eqn:Ea; [reflexivity|].
      destruct He as [_ [Hk _]]. destruct (Hk Ea n r) as [Hne _].
      unfold kread_val in Ev. destruct (e_kread e n r); [discriminate|congruence].
  - cbn [h_kwrite adv] in Hp. destruct Hp as [Hs Hn].
    destruct (e_kwrite e n) eqn:Ev; apply IH; auto.
    apply Hn. destruct (may_kerr a) eqn:Ea; [reflexivity|].
    destruct He as [_ [Hk _]]. destruct (Hk Ea n KData) as [_ Hne]. congruence.
  - cbn [h_lread adv] in Hp. destruct Hp as [Hw Hs]. rewrite Hw.
    apply IH; [exact He|]. apply Hs; [|apply mem_bytes_byte].
    apply mem_bytes_zlen. unfold in_window in Hw. lia.
  - cbn [h_lwrite adv] in Hp. destruct Hp as [Hw Hs]. rewrite Hw. auto.
  - cbn [h_swrite adv] in Hp. apply IH; [exact He|]. apply Hp; [lia|].
    intros Hst Hbs. destruct He as [_ [_ [_ Hsw]]]. specialize (Hsw Hst n).
    assert (0 < zlen bs) by (unfold zlen; destruct bs; [congruence|cbn [length]; lia]). lia.
  - cbn [h_alloc adv] in Hp. destruct Hp as [Ht Hf].
    destruct (e_alloc e n) eqn:Ev; apply IH; auto.
    apply Hf. destruct (may_oom a) eqn:Ea; [reflexivity|].
    destruct He as [Hk _]. specialize (Hk Ea n). congruence.
  - cbn [h_emit adv] in Hp. auto.
Qed.

Lemma adv_always a A (p : prog A) Q : wp (adv a) p [] Q -> always a p Q.
Proof.
  intros Hp e He. destruct (adv_sound a A p e 0%nat [] Q He Hp) as (x & n & tr & -> & HQ).
  exact HQ.
Qed.
