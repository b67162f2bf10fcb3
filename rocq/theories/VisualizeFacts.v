(** Lemmas about drawing cells. *)

From Coq Require Import Ascii String Bool List.
From Verif Require Import PyStr CardsFacts2 Geometry GeometrySpec GeometryFacts5 Visualize VisualizeSpec.
Import ListNotations.

Lemma seqb_refl s : seqb s s = true.
Proof. now apply seqb_eq. Qed.

Section Facts.
  Variable P : Type.
  Notation sh := (shape P).

  Lemma lookup_in (d : dict P) k : (exists f, lookup_dict d k = Some f) <-> In k (map fst d).
  Proof.
    induction d as [|[k' v] d IH]; cbn [lookup_dict map fst In]; [split; [intros [? ?]; discriminate|contradiction]|].
    destruct (seqb k k') eqn:E.
    - apply seqb_eq in E. subst. split; eauto.
    - rewrite IH. split; auto. intros [->|H]; auto. rewrite seqb_refl in E. discriminate.
  Qed.
  Lemma lookup_last (l : list (str * sh)) k f : lookup_dict (rev l) k = Some f <-> last_of l k f.
  Proof.
    split.
    - induction l as [|[k' v] l IH] using rev_ind; [discriminate|]. rewrite rev_app_distr. cbn [rev app lookup_dict].
      destruct (seqb k k') eqn:E.
      + apply seqb_eq in E. subst. intros [= <-]. exists l, []. auto.
      + intros H. destruct (IH H) as (b & a & -> & N). exists b, (a ++ [(k', v)]). split; [now rewrite <- app_assoc|].
        rewrite map_app, in_app_iff. cbn. intros [G|[G|[]]]; auto. subst. rewrite seqb_refl in E. discriminate.
    - intros (b & a & -> & N). rewrite rev_app_distr. cbn [rev]. rewrite <- app_assoc. cbn [app].
      assert (G : forall c, ~ In k (map fst c) -> lookup_dict (c ++ (k, f) :: rev b) k = Some f).
      { induction c as [|[k' v] c IH]; intros H; cbn [app lookup_dict].
        - now rewrite seqb_refl.
        - cbn in H. destruct (seqb k k') eqn:E; [apply seqb_eq in E; subst; tauto|]. apply IH. tauto. }
      apply G. intros I. apply N. rewrite map_rev in I. now apply in_rev in I.
  Qed.

  Lemma member_surf surfaces s p : member P (lookup_dict (surface_dict surfaces)) s p <-> surf_of P surfaces s p.
  Proof.
    unfold member, surf_of, surface_dict. destruct (lookup_dict (rev surfaces) s) as [f|] eqn:E.
    - apply lookup_last in E. split; [intros H; eauto|]. intros (g & G & H). apply lookup_last in E, G. congruence.
    - split; [contradiction|]. intros (g & G & H). apply lookup_last in G. congruence.
  Qed.
  Lemma denote_ext surf surf' cell cell' g p : no_cell g = true ->
    (forall s, surf s p <-> surf' s p) -> (@denote P surf cell g p <-> denote surf' cell' g p).
  Proof.
    intros HN HS. revert HN. induction g as [l IH1 r IH2|l IH1 r IH2|op g IH|g IH|d]; intros HN; cbn [denote no_cell] in *.
    - apply andb_prop in HN as [A B]. rewrite IH1, IH2 by auto. tauto.
    - apply andb_prop in HN as [A B]. rewrite IH1, IH2 by auto. tauto.
    - assert (N : no_cell g = true) by (destruct g; auto). destruct (ceqb op "+"); [auto|]. destruct (ceqb op "-") eqn:E; [now rewrite IH|].
      destruct g; try (now rewrite IH). cbn in HN. congruence.
    - auto.
    - auto.
  Qed.

  Theorem cells_drawn surfaces l : drawable (map fst surfaces) l [] ->
    exists out, show_cells surfaces l = (out, Ok tt) /\ sets P (surf_of P surfaces) l [] (map (set_of P) out).
  Proof.
    unfold show_cells.
    enough (G : forall l before, drawable (map fst surfaces) l (map fst before) ->
      exists out, draw (surface_dict surfaces) l before = (out, Ok tt) /\ sets P (surf_of P surfaces) l (map (set_of P) (rev before)) (map (set_of P) out))
      by (intros H; exact (G l [] H)).
    clear l. induction l as [|[n g|n m|] l IH]; intros before H; cbn [drawable draw] in *.
    - exists []. split; auto. constructor.
    - destruct H as (NC & HN & H).
      assert (D : exists f, to_show P (lookup_dict (surface_dict surfaces)) (lookup_dict before) g = Ok f).
      { apply GeometryFacts5.drawable; auto. eapply Forall_impl; [|exact HN]. intros s I E.
        assert (I' : In s (map fst (surface_dict surfaces))) by (unfold surface_dict; rewrite map_rev; now apply -> in_rev).
        apply lookup_in in I' as [f F]. congruence. }
      destruct D as [f EF]. rewrite EF. destruct (IH ((n, f) :: before) H) as (out & EO & HS). rewrite EO.
      exists ((n, f) :: out). split; auto. cbn [map]. apply sets_cell.
      + intros p. rewrite (drawn P _ _ g f NC EF p). apply denote_ext; auto. intros s. apply member_surf.
      + cbn [rev] in HS. rewrite map_app in HS. exact HS.
    - destruct H as (HM & H). apply lookup_in in HM as [f EF]. rewrite EF.
      destruct (IH ((n, f) :: before) H) as (out & EO & HS). rewrite EO.
      exists ((n, f) :: out). split; auto. cbn [map]. apply (sets_like P _ n m l _ _ (fun p => f p = true)).
      + rewrite <- (rev_involutive before) in EF. apply lookup_last in EF as (b & a & E & N).
        exists (map (set_of P) b), (map (set_of P) a). rewrite E, map_app. split; [reflexivity|]. rewrite map_map. exact N.
      + cbn [rev] in HS. rewrite map_app in HS. exact HS.
    - destruct (IH before H) as (out & EO & HS). exists out. split; auto. now constructor.
  Qed.
End Facts.
