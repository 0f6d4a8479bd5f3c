(** * C212: the parts of a line all start in the corner of the container *)
From Coq Require Import ZArith QArith Qcanon Qround Lia Lqa Bool List.
From Verif Require Import PyNum NumFacts Units BoxModel BoxSpec BoxFacts Engine EngineSpec EngineExamples
  RefLayout RefFacts RefProps OkSpec OkFacts HistSpec HistProps MoveSpec MoveProps LocalProps PushSpec PushProps PixelSpec OkProps SymProps DrawnSpec ReorderSpec ReorderProps RowSpec RowProps LoneProps.
Import ListNotations.
Open Scope Qc_scope.

Section T.
Context {S : Type} (sty : S -> style).
Notation node := (node S).
(** C212.  A child of a row that is not relatively positioned lies in the upper left corner of the content box of its parent, whatever comes before it:
    an image with its margin edges; text with the upper margin edge, and on the left with its content; anything else
    with the left margin edge and the upper border edge. *)
Theorem C212_corner d h5 (n n' : node) : history sty n -> layout sty d h5 n = (n', Ok tt) ->
  exists x, shows n' (finished h5 d x)
    /\ forall k u us, place n x k (UNode u us) -> row sty (n_style k) (n_kids k) ->
       forall p c v vs, nth_error (n_kids k) p = Some c -> nth_error us p = Some (UNode v vs) -> st_position (sty (n_style c)) <> PRelative ->
         match st_display (sty (n_style c)), s_replaced (n_intr c) with
         | Some DInline, true => u_left v = u_ml v + u_bl v + u_pl v /\ u_top v = u_mt v + u_bt v + u_pt v
         | Some DInline, false => u_left v = 0 /\ u_top v = u_mt v + u_bt v + u_pt v
         | _, _ => u_left v = u_ml v + u_bl v + u_pl v /\ u_top v = u_bt v + u_pt v
         end.
Proof.
  intros Hn Ln. exists (draft sty d n). rewrite <- page_draft. split; [apply (C122_any_history sty); assumption|].
  intros k u us P Rw p c v vs Hp Tp Np. destruct (place_any sty d n _ _ _ _ P eq_refl _ _ eq_refl) as (a & t0 & w & X & _). destruct k as [s i b ks]. cbn [n_style n_kids] in *. rewrite format_split in X. destruct (st_display (sty s)) as [dk|] eqn:D; [|discriminate X].
  rewrite (row_flat sty dk s ks D Rw) in X. unfold node_of in X. cbv zeta in X. injection X as _ X. subst us. unfold kids_of in Tp. rewrite nth_error_map, Hp in Tp. cbn [option_map] in Tp. injection Tp as Tp.
  unfold MoveProps.laid_kid in Tp. cbn [andb] in Tp. revert Tp. generalize (inner_of d a dk (sty s) i). intros a1 Tp. destruct c as [s1 i1 b1 ks1]. cbn [n_style n_intr] in *. rewrite format_split in Tp. destruct (st_display (sty s1)) as [d1|] eqn:D1; [|discriminate Tp].
  unfold node_of in Tp. cbv zeta in Tp. injection Tp as <- _. cbn [u_left u_top u_ml u_bl u_pl u_mt u_bt u_pt].
  assert (Ir : isrel (sty s1) = false) by (unfold isrel; destruct (st_position (sty s1)); try reflexivity; congruence). rewrite Ir. unfold lefts, edges.
  destruct d1; cbn [isinl andb negb]; try (split; ring). destruct (s_replaced i1); cbn [andb negb]; split; ring.
Qed.
End T.
Print Assumptions C212_corner.

(** ** Example *)
Open Scope Z_scope.
(** The second of two words in a block, after an image. *)
Definition an_image : doc := Node (vmargin 5 6 inline_style) (mkSize (Some (NI 20)) (Some (NI 25)) true true None true) (Some box0) [].
Definition corner_line : list doc := [a_word 30 12; an_image; a_word 44 13].
Example C212_example : history idsty (rdoc corner_line) /\ layout idsty screen false (rdoc corner_line) = (out false (rdoc corner_line), Ok tt)
  /\ exists k u us v vs, place (rdoc corner_line) (draft idsty screen (rdoc corner_line)) k (UNode u us) /\ row idsty (n_style k) (n_kids k) /\ n_kids k = corner_line
     /\ nth_error us 1 = Some (UNode v vs) /\ st_position (n_style an_image) <> PRelative /\ (0 < u_mt v)%Qc.
Proof.
  split; [apply history_new; solve_new|]. split; [apply ok_layout; vm_compute; reflexivity|].
  destruct (draft idsty screen (rdoc corner_line)) as [v vs| |] eqn:E; [|exfalso; revert E; vm_compute; discriminate..].
  assert (X : match vs with UNode u us :: _ => match nth_error us 1 with Some (UNode w _) => qc_ltb 0 (u_mt w) = true | _ => False end | _ => False end).
  { replace vs with (match draft idsty screen (rdoc corner_line) with UNode _ l => l | _ => [] end) by (rewrite E; reflexivity). vm_compute. reflexivity. }
  destruct vs as [|[u us| |] vs]; try contradiction. destruct (nth_error us 1) as [[w ws| |]|] eqn:N; try contradiction.
  do 5 eexists. split; [eapply (place_below _ _ _ _ _ _ 0); [reflexivity|reflexivity|apply place_here]|]. cbn [n_style n_kids el]. split; [cbn; intros k I; repeat (destruct I as [<-|I]; [reflexivity|]); destruct I|]. split; [reflexivity|]. split; [exact N|]. split; [discriminate|].
  destruct (qc_ltb_spec 0 (u_mt w)); [assumption|discriminate].
Qed.
