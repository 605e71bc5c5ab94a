(** ExamplesLeak: a concrete case that meets the hypotheses of C89. *)
From Coq Require Import Permutation.
From Verif Require Import Base Lists Prog PktBuf Core WP Walk CoreRel WalkCore CoreHist Spec SpecRx
  Trace PropTx PropMsg Reasm PropRx PropRound Crc Serial SpecSer SerRx SerWalk PropSer PropSerTx PropSerRound Concrete ExamplesSer PropLeak.

(** Noise, a frame without its end flag, and the same frame intact, in three chunks with an
    operation of the application in between. *)
Definition spoiled : list Z := Eval vm_compute in firstn (length tricky_wire - 1) tricky_wire ++ [7].
Definition mixed : list sop := Eval cbv in
  [fd [1; 2; 3]; fd (126 :: firstn 6 spoiled); SCore (OpTx 9 true 1 [5]); fd (skipn 6 spoiled ++ tricky_wire)].
Example C89_case :
  damaged_in (fed false mixed) 1 /\ damaged_in (fed true mixed) 0 /\ Forall (ser_traffic (Endpoint 8)) mixed /\
  can_finish no_oom (ser_history 256 no_app (Endpoint 8) mixed) (fun w tr =>
    handed false tr = [tricky] /\ length (allocs tr) = 3%nat /\ length (frees tr) = 2%nat /\ queued w false = []).
Proof.
  assert (fcs tricky / 256 * 256 + fcs tricky mod 256 = fcs tricky) as Ef
    by (rewrite Z.mul_comm; symmetry; apply Z.div_mod; discriminate).
  split; [|split; [|split]].
  - assert (damaged_in ([] ++ repeat 126 0 ++ ([126; 1; zlen tricky] ++ flat_map esc tricky ++ [fcs tricky / 256; fcs tricky mod 256; 126]) ++ []) 0) as H1.
    { eapply (DFrame [] 0 _ tricky (fcs tricky / 256) (fcs tricky mod 256) 126 [] 0);
        [intros []|apply unescaped_esc|vm_compute; split; discriminate|apply DNone; intros []]. }
    assert (damaged_in ([1; 2; 3] ++ repeat 126 1 ++ ([126; 1; zlen tricky] ++ flat_map esc tricky ++ [fcs tricky / 256; fcs tricky mod 256; 7])
       ++ ([] ++ repeat 126 0 ++ ([126; 1; zlen tricky] ++ flat_map esc tricky ++ [fcs tricky / 256; fcs tricky mod 256; 126]) ++ [])) 1) as H2.
    { eapply (DFrame [1; 2; 3] 1 _ tricky (fcs tricky / 256) (fcs tricky mod 256) 7 _ 0);
        [cbn; intuition discriminate|apply unescaped_esc|vm_compute; split; discriminate|exact H1]. }
    match type of H2 with damaged_in ?s _ => replace (fed false mixed) with s by (vm_compute; reflexivity) end. exact H2.
  - apply DNone. intros [].
  - unfold mixed, fd. ser_ops.
  - apply (by_run _ calm); [apply calm_no_oom|]. vm_compute. auto.
Qed.
