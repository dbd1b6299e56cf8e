(** Proofs about [#include]: which headers come out, and that each comes after what it uses. *)

From Coq Require Import ZArith Lia String List Bool Permutation.
From Verif Require Import Outcome Root Downcast Dim System Catalogue Includes SpecIncludes.
Import ListNotations.
Local Open Scope string_scope.
Local Open Scope res_scope.
Local Open Scope list_scope.

(** ** The order of the headers *)

(** Position in the list of the headers. *)
Fixpoint position (l : list header) (p : string) : nat :=
  match l with
  | [] => O
  | h :: r => if String.eqb p (h_path h) then O else S (position r p)
  end.

(** Every header has its own path and includes only headers before it. *)
Fixpoint paths_fresh (seen : list string) (l : list header) : bool :=
  match l with
  | [] => true
  | h :: r => negb (existsb (String.eqb (h_path h)) seen) && forallb (fun q => existsb (String.eqb q) seen) (h_includes h) &&
              paths_fresh (h_path h :: seen) r
  end.
Lemma headers_ordered : paths_fresh [] headers = true.
Proof. vm_compute. reflexivity. Qed.

#[local] Opaque headers.

Lemma existsb_eqb : forall p l, existsb (String.eqb p) l = true <-> In p l.
Proof.
  intros p l. rewrite existsb_exists. split.
  - intros (q & H & E). apply String.eqb_eq in E. now subst.
  - intros H. exists p. split; auto. apply String.eqb_refl.
Qed.

Lemma position_bound : forall l p, In p (map h_path l) -> (position l p < length l)%nat.
Proof.
  induction l as [|h l IH]; cbn [map position length]; intros p [].
  - subst. rewrite String.eqb_refl. lia.
  - destruct (String.eqb p (h_path h)); [lia|]. specialize (IH p H). lia.
Qed.

Lemma fresh_find : forall l seen h, paths_fresh seen l = true -> In h l ->
  ~ In (h_path h) seen /\ find (fun x => String.eqb (h_path h) (h_path x)) l = Some h.
Proof.
  induction l as [|x l IH]; intros seen h H J; [destruct J|]; destruct J as [J|J]; cbn [paths_fresh] in H;
    apply andb_true_iff in H as [H H3]; apply andb_true_iff in H as [H1 H2]; apply negb_true_iff in H1; cbn [find].
  - subst. rewrite String.eqb_refl. split; auto. intros I. apply existsb_eqb in I. congruence.
  - destruct (IH _ _ H3 J) as [N F]. split; [intros I; apply N; now right|].
    destruct (String.eqb (h_path h) (h_path x)) eqn:E; auto. exfalso. apply N. left. now apply String.eqb_eq in E.
Qed.

Lemma find_header_ok : forall h, In h headers -> find_header (h_path h) = Ok h.
Proof. intros h H. unfold find_header. now rewrite (proj2 (fresh_find _ _ _ headers_ordered H)). Qed.
Lemma path_unique : forall h h', In h headers -> In h' headers -> h_path h = h_path h' -> h = h'.
Proof. intros h h' H H' E. pose proof (find_header_ok h H) as A. rewrite E, (find_header_ok h' H') in A. congruence. Qed.
Lemma find_header_some : forall p h, find_header p = Ok h -> In h headers /\ h_path h = p.
Proof.
  intros p h. unfold find_header. destruct (find _ headers) as [x|] eqn:F; [|discriminate].
  intros H. injection H as <-. apply find_some in F as [I E]. apply String.eqb_eq in E. auto.
Qed.
Lemma known_header : forall p, In p (map h_path headers) -> exists h, find_header p = Ok h.
Proof. intros p H. apply in_map_iff in H as (h & <- & I). exists h. now apply find_header_ok. Qed.

Lemma fresh_before : forall l seen h q, paths_fresh seen l = true -> In h l -> In q (h_includes h) ->
  In q seen \/ (In q (map h_path l) /\ position l q < position l (h_path h))%nat.
Proof.
  induction l as [|x l IH]; intros seen h q H J Q; [destruct J|]; destruct J as [J|J]; cbn [paths_fresh] in H;
    apply andb_true_iff in H as [H H3]; apply andb_true_iff in H as [H1 H2].
  - subst. left. rewrite forallb_forall in H2. apply existsb_eqb, H2, Q.
  - destruct (IH _ _ _ H3 J Q) as [[E|I]|[I L]].
    + right. subst q. split; [now left|]. cbn [position]. rewrite String.eqb_refl.
      destruct (String.eqb (h_path h) (h_path x)) eqn:E; [|lia]. exfalso.
      apply String.eqb_eq in E. pose proof (proj1 (fresh_find _ _ _ H3 J)) as N. apply N. left. auto.
    + now left.
    + right. split; [now right|]. cbn [position].
      destruct (String.eqb (h_path h) (h_path x)) eqn:E.
      * exfalso. apply String.eqb_eq in E. pose proof (proj1 (fresh_find _ _ _ H3 J)) as N. apply N. left. auto.
      * destruct (String.eqb q (h_path x)); lia.
Qed.

Definition rank (p : string) : nat := position headers p.
Lemma includes_lower : forall h q, In h headers -> In q (h_includes h) ->
  In q (map h_path headers) /\ (rank q < rank (h_path h))%nat.
Proof. intros h q H Q. destruct (fresh_before _ _ _ _ headers_ordered H Q) as [[]|X]. exact X. Qed.
Lemma rank_bound : forall p, In p (map h_path headers) -> (rank p < length headers)%nat.
Proof. intros. now apply position_bound. Qed.

(** ** The preprocessor *)

(** A list of headers each of which comes after the ones it includes. *)
Inductive ordered : list header -> Prop :=
| ordered_nil : ordered []
| ordered_snoc : forall l h, ordered l -> In h headers -> incl (h_includes h) (map h_path l) ->
    ~ In (h_path h) (map h_path l) -> ordered (l ++ [h]).

(** The state in the middle of the files [stack]. *)
Definition midway (stack : list string) (o : output_text) : Prop :=
  ordered (text o) /\ (forall p, In p (opened o) <-> In p stack \/ In p (map h_path (text o))).

(** Headers added: files included by the program, with a position below [b]. *)
Definition extends (paths : list string) (b : nat) (o o' : output_text) : Prop :=
  exists new, text o' = text o ++ new /\ forall h, In h new -> included paths (h_path h) /\ (rank (h_path h) < b)%nat.

Lemma extends_refl : forall paths b o, extends paths b o o.
Proof. intros. exists []. rewrite app_nil_r. split; auto. intros h []. Qed.
Lemma extends_trans : forall paths b x y z, extends paths b x y -> extends paths b y z -> extends paths b x z.
Proof.
  intros paths b x y z (n & E & N) (m & F & M). exists (n ++ m). rewrite F, E, app_assoc. split; auto.
  intros h H. apply in_app_or in H as [H|H]; auto.
Qed.
Lemma extends_more : forall paths b c x y, (b <= c)%nat -> extends paths b x y -> extends paths c x y.
Proof. intros paths b c x y L (n & E & N). exists n. split; auto. intros h H. destruct (N h H). split; [auto|lia]. Qed.
Lemma extends_keeps : forall paths b x y p, extends paths b x y -> In p (map h_path (text x)) -> In p (map h_path (text y)).
Proof. intros paths b x y p (n & E & _) H. rewrite E, map_app. apply in_or_app; now left. Qed.

Lemma include_spec : forall k paths p stack o, midway stack o -> In p (map h_path headers) -> included paths p ->
  (rank p < k)%nat -> (forall s, In s stack -> rank p < rank s)%nat ->
  exists o', include k p o = Ok o' /\ midway stack o' /\ extends paths (S (rank p)) o o' /\ In p (map h_path (text o')).
Proof.
  induction k as [|k IH]; intros paths p stack o M K I F S; [lia|]. cbn [include].
  destruct M as [Or Op]. destruct (existsb (String.eqb p) (opened o)) eqn:E.
  - exists o. split; [reflexivity|]. split; [split; auto|]. split; [apply extends_refl|].
    apply existsb_eqb, Op in E as [E|E]; auto. specialize (S p E). lia.
  - assert (Np : ~ In p (opened o)) by (intros X; apply existsb_eqb in X; congruence). clear E.
    destruct (known_header p K) as (h & H). rewrite H. cbn [bind]. apply find_header_some in H as (Hh & Ep).
    assert (L : forall l o1, incl l (h_includes h) -> midway (p :: stack) o1 ->
      exists o2, fold_left (fun r q => x <- r; include k q x) l (Ok o1) = Ok o2 /\ midway (p :: stack) o2 /\
        extends paths (rank p) o1 o2 /\ incl l (map h_path (text o2))).
    { induction l as [|q l IL]; intros o1 Il M1; cbn [fold_left].
      - exists o1. split; [reflexivity|]. split; [exact M1|]. split; [apply extends_refl|intros x []].
      - assert (Q : In q (h_includes h)) by (apply Il; now left).
        destruct (includes_lower _ _ Hh Q) as [Kq Rq]. rewrite Ep in Rq.
        destruct (IH paths q (p :: stack) o1 M1 Kq) as (o2 & E2 & M2 & X2 & T2).
        + apply (included_through paths h q); auto. now rewrite Ep.
        + lia.
        + intros s [<-|Hs]; auto. specialize (S s Hs). lia.
        + cbn [bind]. rewrite E2. destruct (IL o2) as (o3 & E3 & M3 & X3 & T3); [intros x Hx; apply Il; now right|exact M2|].
          assert (X2' : extends paths (rank p) o1 o2) by (eapply extends_more; [|exact X2]; lia).
          exists o3. split; [exact E3|]. split; [exact M3|]. split; [eapply extends_trans; eauto|].
          intros x [<-|Hx]; [eapply extends_keeps; eauto|auto]. }
    destruct (L (h_includes h) (Output (p :: opened o) (text o)) (incl_refl _)) as (o2 & E2 & (Or2 & Op2) & X2 & T2).
    { split; [exact Or|]. cbn [opened text]. intros q. cbn [In]. rewrite Op. tauto. }
    rewrite E2. cbn [bind]. exists (Output (opened o2) (text o2 ++ [h])). split; [reflexivity|].
    destruct X2 as (new & T & N). cbn [text] in T.
    assert (Nt : ~ In p (map h_path (text o2))).
    { rewrite T, map_app. intros X. apply in_app_or in X as [X|X].
      - apply Np, Op. now right.
      - apply in_map_iff in X as (y & Ey & Y). destruct (N y Y) as [_ R]. rewrite Ey in R. lia. }
    split; [split|split]; cbn [opened text].
    + constructor; auto. now rewrite Ep.
    + intros q. rewrite Op2, map_app, in_app_iff. cbn [map In]. rewrite Ep. tauto.
    + exists (new ++ [h]). cbn [text]. rewrite T, app_assoc. split; [reflexivity|].
      intros y Hy. apply in_app_or in Hy as [Hy|[<-|[]]]; [|rewrite Ep; split; [auto|lia]].
      destruct (N y Hy). split; [auto|lia].
    + rewrite map_app. apply in_or_app. right. left. exact Ep.
Qed.

(** What a program includes, each header after the ones it includes. *)
Lemma preprocess_spec : forall paths, known paths ->
  exists hs, preprocess paths = Ok hs /\ ordered hs /\ (forall p, In p (map h_path hs) <-> included paths p).
Proof.
  intros paths K.
  assert (L : forall l o, incl l paths -> midway [] o -> (forall h, In h (text o) -> included paths (h_path h)) ->
    exists o', fold_left (fun r p => x <- r; include (S (length headers)) p x) l (Ok o) = Ok o' /\ midway [] o' /\
      (forall h, In h (text o') -> included paths (h_path h)) /\ incl (map h_path (text o)) (map h_path (text o')) /\
      incl l (map h_path (text o'))).
  { induction l as [|p l IL]; intros o Il M I; cbn [fold_left].
    - exists o. split; [reflexivity|]. split; [exact M|]. split; [exact I|]. split; [apply incl_refl|intros x []].
    - assert (P : In p paths) by (apply Il; now left). specialize (K p P) as Kp.
      destruct (include_spec (S (length headers)) paths p [] o M Kp) as (o1 & E1 & M1 & X1 & T1).
      + now apply included_directly.
      + pose proof (rank_bound p Kp). lia.
      + intros s [].
      + cbn [bind]. rewrite E1. destruct (IL o1) as (o2 & E2 & M2 & I2 & X2 & T2); [intros x Hx; apply Il; now right|exact M1| |].
        * destruct X1 as (new & T & N). rewrite T. intros h Hh. apply in_app_or in Hh as [Hh|Hh]; [auto|exact (proj1 (N h Hh))].
        * exists o2. split; [exact E2|]. split; [exact M2|]. split; [exact I2|]. split.
          -- intros x Hx. apply X2. eapply extends_keeps; eauto.
          -- intros x [<-|Hx]; [apply X2, T1|apply T2, Hx]. }
  destruct (L paths nothing (incl_refl _)) as (o & E & (Or & _) & I & _ & T).
  { split; [constructor|]. cbn [nothing opened text map In]. tauto. }
  { intros h []. }
  unfold preprocess. rewrite E. cbn [bind]. exists (text o). split; [reflexivity|]. split; [exact Or|].
  assert (C : forall h q, In h (text o) -> In q (h_includes h) -> In q (map h_path (text o))).
  { clear - Or. induction Or as [|l h Or IH Hh Il Nh]; [intros h q []|]. intros x q Hx Q. rewrite map_app. apply in_or_app. left.
    apply in_app_or in Hx as [Hx|[<-|[]]]; [exact (IH _ _ Hx Q)|exact (Il _ Q)]. }
  assert (Hd : forall h, In h (text o) -> In h headers).
  { clear - Or. induction Or as [|l h Or IH Hh Il Nh]; [intros h []|]. intros x Hx.
    apply in_app_or in Hx as [Hx|[<-|[]]]; auto. }
  intros p. split.
  - intros H. apply in_map_iff in H as (h & <- & H). auto.
  - intros H. induction H as [p H|h q H IH Hh Q]; [exact (T p H)|].
    apply in_map_iff in IH as (h' & E' & H'). rewrite (path_unique h h') in Q; auto. exact (C h' q H' Q).
Qed.

(** A line that names no header of the library is an error. *)
Lemma ordered_headers : forall l, ordered l -> incl l headers.
Proof.
  intros l Or. induction Or as [|l h Or IH Hh Il Nh]; [intros h []|]. intros x Hx.
  apply in_app_or in Hx as [Hx|[<-|[]]]; auto.
Qed.
Lemma ordered_closed : forall l h q, ordered l -> In h l -> In q (h_includes h) -> In q (map h_path l).
Proof.
  intros l h q Or. revert h q. induction Or as [|l h Or IH Hh Il Nh]; [intros h q []|]. intros x q Hx Q. rewrite map_app. apply in_or_app. left.
  apply in_app_or in Hx as [Hx|[<-|[]]]; [exact (IH _ _ Hx Q)|exact (Il _ Q)].
Qed.
Lemma ordered_nodup : forall l, ordered l -> NoDup l.
Proof.
  intros l Or. induction Or as [|l h Or IH Hh Il Nh]; [constructor|].
  apply (Permutation_NoDup (Permutation_cons_append l h)). constructor; auto. intros X. apply Nh. apply in_map_iff; eauto.
Qed.

Lemma preprocess_unknown : forall paths, ~ known paths -> preprocess paths = IllFormed.
Proof.
  intros paths N. unfold preprocess.
  assert (Fail : forall l, fold_left (fun r p => x <- r; include (S (length headers)) p x) l IllFormed = IllFormed)
    by (induction l as [|q l IH]; cbn [fold_left]; auto).
  assert (L : forall l o, ~ known l -> midway [] o ->
    fold_left (fun r p => x <- r; include (S (length headers)) p x) l (Ok o) = IllFormed).
  { induction l as [|p l IL]; intros o Nl M; [exfalso; apply Nl; intros p []|]. cbn [fold_left].
    destruct (in_dec string_dec p (map h_path headers)) as [K|K].
    - destruct (include_spec (S (length headers)) [p] p [] o M K) as (o1 & E1 & M1 & _).
      + apply included_directly. now left.
      + pose proof (rank_bound p K). lia.
      + intros s [].
      + cbn [bind]. rewrite E1. apply IL; auto. intros Kl. apply Nl. intros q [<-|Q]; auto.
    - cbn [bind]. cbn [include]. destruct M as [Or Op]. destruct (existsb (String.eqb p) (opened o)) eqn:E.
      + exfalso. apply existsb_eqb, Op in E as [[]|E]. apply K. apply in_map_iff in E as (h & <- & H).
        apply in_map, (ordered_headers _ Or _ H).
      + destruct (find_header p) as [h| | | |] eqn:Fh; try apply Fail; unfold find_header in Fh;
          destruct (find _ headers) eqn:G; try discriminate Fh.
        exfalso. apply K. injection Fh as ->. apply find_some in G as [G1 G2]. apply String.eqb_eq in G2. subst p. now apply in_map. }
  rewrite (L paths nothing N); [reflexivity|]. split; [constructor|]. cbn [nothing opened text map In]. tauto.
Qed.
