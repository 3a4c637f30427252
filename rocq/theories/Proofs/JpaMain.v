(** The files of the JPA generator *)
From Coq Require Import String Ascii List NArith Bool Lia Arith.
From Verif.Model Require Import GoString Util Octopus Common Jpa.
From Verif.Spec Require Import Text Reading OctopusSpec GraphqlSpec KotlinSpec.
From Verif.Proofs Require Import StringLemmas UtilProofs ReadingProofs OctopusProofs GraphqlProofs GormProofs GormText SqlalchemyProofs SqlalchemyText KotlinProofs JpaProofs JpaText JpaEntity JpaFile JpaDescribed.
From Verif.Spec Require Import KotlinSpec.
Import ListNotations.
Local Open Scope string_scope.

Section Generate.
Variables camel lower_camel snake : string -> string.
Variable path_join : list string -> string.
Variable o : kt_opt.
Variable ts : list table.
Notation field := (new_kt_field lower_camel snake).
Notation prop c := (lower_camel (c_name c)).
Notation class t := (new_kt_class camel lower_camel snake o t).
Notation prefix := (get_prefix (ko_prefix o)).
Notation ks := (ks camel lower_camel snake o ts).
Notation class_named := (class_named camel prefix (ko_remove o)).
Notation resolved := (resolved camel prefix (ko_remove o) (ko_relation o) ts).

(** ** How it ends *)

Lemma class_some : forall n, class_of_table ks n <> "" <->
  exists pre t post, ts = (pre ++ t :: post)%list /\ t_name t = n /\ ~ In n (map t_name pre) /\ class_named t <> "".
Proof.
  intros n. unfold JpaDescribed.ks. destruct (in_dec String.string_dec n (map t_name ts)) as [I|N].
  - destruct (first_of ts n I) as [pre [t [post [P [T N]]]]]. rewrite (class_found camel lower_camel snake o ts n pre t post P T N). split.
    + intros H. now exists pre, t, post.
    + intros [pre' [t' [post' [P' [T' [N' H]]]]]].
      assert (E : class_of_table (map (new_kt_class camel lower_camel snake o) ts) n = class_named t) by (now apply (class_found camel lower_camel snake o ts n pre t post)).
      rewrite (class_found camel lower_camel snake o ts n pre' t' post' P' T' N') in E. congruence.
  - rewrite class_missing by exact N. split; [congruence|]. intros [pre [t [post [P [T _]]]]]. exfalso. apply N. rewrite P, map_app, in_app_iff. right. now left.
Qed.
Lemma relation_some : forall c, relation_annos lower_camel o ks c <> None <-> resolved c.
Proof.
  intros c. unfold relation_annos, KotlinSpec.resolved. destruct (String.eqb_spec (ko_relation o) "VRelation") as [E|E].
  - destruct (c_ref c) as [r|]; [|split; [intros _ r _ Q; discriminate|discriminate]].
    destruct (String.eqb_spec (class_of_table ks (ref_table r)) "") as [Z|Z]; split.
    + congruence.
    + intros H. exfalso. revert Z. apply class_some. exact (H r E eq_refl).
    + intros _ r' _ Q. injection Q as <-. now apply class_some.
    + discriminate.
  - split; [intros _ r Q; contradiction|discriminate].
Qed.
Lemma fields_some : forall b cs, fields_lines lower_camel o ks b (map field cs) <> None <-> forall c, In c cs -> resolved c.
Proof.
  intros b cs. induction cs as [|c cs IH]; [split; [intros _ c []|discriminate]|]. cbn [map fields_lines].
  assert (F : field_annos lower_camel o ks (field c) <> None <-> resolved c).
  { rewrite <- relation_some. unfold field_annos. rewrite col_of. destruct (relation_annos lower_camel o ks c); split; congruence. }
  destruct (field_annos lower_camel o ks (field c)) as [a|]; [destruct (fields_lines lower_camel o ks b (map field cs)) as [l|]|].
  - split; [|discriminate]. intros _ d [<-|I]; [apply F; discriminate|]. apply IH; [discriminate|exact I].
  - split; [congruence|]. intros H. exfalso. apply (proj2 IH); [|reflexivity]. intros d I. apply H. now right.
  - split; [congruence|]. intros H. exfalso. apply (proj2 F); [|reflexivity]. apply H. now left.
Qed.
Lemma entity_some : forall t, entity_text lower_camel o ks (class t) <> None <-> forall c, In c (t_cols t) -> resolved c.
Proof.
  intros t. rewrite <- (fields_some (match has_identity o (class t) with Some _ => true | None => false end)). unfold entity_text.
  change (kc_fields (class t)) with (map field (t_cols t)). cbv zeta.
  destruct (fields_lines lower_camel o ks _ (map field (t_cols t))); split; congruence.
Qed.
Lemma entities_done : forall dir l, snd (kt_entities lower_camel path_join o ks dir (map (new_kt_class camel lower_camel snake o) l)) = KtDone <->
  forall t c, In t l -> In c (t_cols t) -> resolved c.
Proof.
  intros dir l. induction l as [|t l IH]; [split; [intros _ t c []|reflexivity]|]. cbn [map kt_entities].
  pose proof (entity_some t) as E. destruct (entity_text lower_camel o ks (class t)) as [text|].
  - destruct (kt_entities lower_camel path_join o ks dir (map (new_kt_class camel lower_camel snake o) l)) as [rest e]. cbn [snd] in *. rewrite IH. split.
    + intros H u c [<-|U] I; [apply E; [discriminate|exact I]|now apply (H u)].
    + intros H u c U I. apply (H u); [now right|exact I].
  - cbn [snd]. split; [discriminate|]. intros H. exfalso. apply (proj2 E); [|reflexivity]. intros c I. apply (H t); [now left|exact I].
Qed.
Lemma entities_end : forall dir l, snd (kt_entities lower_camel path_join o ks dir (map (new_kt_class camel lower_camel snake o) l)) <> KtPanic.
Proof.
  intros dir l. induction l as [|t l IH]; [discriminate|]. cbn [map kt_entities]. destruct (entity_text lower_camel o ks (class t)); [|discriminate].
  now destruct (kt_entities lower_camel path_join o ks dir (map (new_kt_class camel lower_camel snake o) l)).
Qed.
Lemma repository_some : forall t, repository_text o (class t) <> None <-> keys t <> [].
Proof.
  intros t. unfold repository_text. rewrite composite_is, pk_is. unfold compositeb. destruct (keys t) as [|c [|d l]]; cbn; split; congruence.
Qed.
Lemma repositories_done : forall dir l, snd (kt_repositories path_join o dir (map (new_kt_class camel lower_camel snake o) l)) = KtDone <->
  forall t, In t l -> keys t <> [].
Proof.
  intros dir l. induction l as [|t l IH]; [split; [intros _ t []|reflexivity]|]. cbn [map kt_repositories].
  pose proof (repository_some t) as E. destruct (repository_text o (class t)) as [text|].
  - destruct (kt_repositories path_join o dir (map (new_kt_class camel lower_camel snake o) l)) as [rest e]. cbn [snd] in *. rewrite IH. split.
    + intros H u [<-|U]; [apply E; discriminate|now apply H].
    + intros H u U. apply H. now right.
  - cbn [snd]. split; [discriminate|]. intros H. exfalso. apply (proj2 E); [|reflexivity]. apply H. now left.
Qed.
Lemma repositories_end : forall dir l, snd (kt_repositories path_join o dir (map (new_kt_class camel lower_camel snake o) l)) <> KtFatal.
Proof.
  intros dir l. induction l as [|t l IH]; [discriminate|]. cbn [map kt_repositories]. destruct (repository_text o (class t)); [|discriminate].
  now destruct (kt_repositories path_join o dir (map (new_kt_class camel lower_camel snake o) l)).
Qed.
End Generate.

Notation selection o s := (filter (passes (ko_filter o)) (s_tables s)).

Theorem done_iff : forall camel lower_camel snake path_join o s output,
  snd (kt_generate camel lower_camel snake path_join o s output) = KtDone <->
  (forall t c, In t (selection o s) -> In c (t_cols t) ->
     resolved camel (get_prefix (ko_prefix o)) (ko_remove o) (ko_relation o) (selection o s) c) /\
  (ko_repos o = "" \/ forall t, In t (selection o s) -> keys t <> []).
Proof.
  intros camel lower_camel snake path_join o s output. unfold kt_generate, kt_classes.
  set (ts := selection o s). pose proof (entities_done camel lower_camel snake path_join o ts (package_dir path_join output (ko_package o)) ts) as E.
  pose proof (repositories_done camel lower_camel snake path_join o (package_dir path_join output (ko_repos o)) ts) as R.
  unfold ks in E. cbv zeta. destruct (kt_entities lower_camel path_join o _ _ _) as [entities e]. cbn [snd] in E. rewrite <- E.
  destruct e; cbn [snd].
  - destruct (String.eqb_spec (ko_repos o) "") as [Z|Z]; cbn [snd].
    + split; [intros _; split; [reflexivity|now left]|reflexivity].
    + destruct (kt_repositories path_join o _ _) as [repos e]. cbn [snd] in *. rewrite R. split; [intros H; split; [reflexivity|now right]|intros [_ [H|H]]; [contradiction|exact H]].
  - split; [discriminate|intros [H _]; discriminate].
  - split; [discriminate|intros [H _]; discriminate].
Qed.
Theorem panic_iff : forall camel lower_camel snake path_join o s output,
  snd (kt_generate camel lower_camel snake path_join o s output) = KtPanic <->
  (forall t c, In t (selection o s) -> In c (t_cols t) ->
     resolved camel (get_prefix (ko_prefix o)) (ko_remove o) (ko_relation o) (selection o s) c) /\
  ko_repos o <> "" /\ exists t, In t (selection o s) /\ keys t = [].
Proof.
  intros camel lower_camel snake path_join o s output. unfold kt_generate, kt_classes.
  set (ts := selection o s). pose proof (entities_done camel lower_camel snake path_join o ts (package_dir path_join output (ko_package o)) ts) as E.
  pose proof (entities_end camel lower_camel snake path_join o ts (package_dir path_join output (ko_package o)) ts) as E2.
  pose proof (repositories_done camel lower_camel snake path_join o (package_dir path_join output (ko_repos o)) ts) as R.
  pose proof (repositories_end camel lower_camel snake path_join o (package_dir path_join output (ko_repos o)) ts) as R2.
  assert (D : (exists t, In t ts /\ keys t = []) <-> ~ forall t, In t ts -> keys t <> []).
  { split; [intros [t [I K]] H; now apply (H t)|]. intros H. destruct (existsb (fun t => match keys t with [] => true | _ => false end) ts) eqn:X.
    - apply existsb_exists in X as [t [I K]]. exists t. split; [exact I|]. now destruct (keys t).
    - exfalso. apply H. intros t I K. assert (Q : existsb (fun t => match keys t with [] => true | _ => false end) ts = true)
        by (apply existsb_exists; exists t; split; [exact I|now rewrite K]). congruence. }
  rewrite D. unfold ks in E, E2. cbv zeta. destruct (kt_entities lower_camel path_join o _ _ _) as [entities e]. cbn [snd] in E, E2. rewrite <- E.
  destruct e; cbn [snd].
  - destruct (String.eqb_spec (ko_repos o) "") as [Z|Z]; cbn [snd].
    + split; [discriminate|intros [_ [H _]]; contradiction].
    + destruct (kt_repositories path_join o _ _) as [repos e]. cbn [snd] in *. rewrite <- R. split.
      * intros ->. split; [reflexivity|]. split; [exact Z|discriminate].
      * intros [_ [_ H]]. destruct e; congruence.
  - congruence.
  - split; [discriminate|intros [H _]; discriminate].
Qed.
Theorem fatal_iff : forall camel lower_camel snake path_join o s output,
  snd (kt_generate camel lower_camel snake path_join o s output) = KtFatal <->
  ~ (forall t c, In t (selection o s) -> In c (t_cols t) ->
     resolved camel (get_prefix (ko_prefix o)) (ko_remove o) (ko_relation o) (selection o s) c).
Proof.
  intros camel lower_camel snake path_join o s output. unfold kt_generate, kt_classes.
  set (ts := selection o s). pose proof (entities_done camel lower_camel snake path_join o ts (package_dir path_join output (ko_package o)) ts) as E.
  pose proof (entities_end camel lower_camel snake path_join o ts (package_dir path_join output (ko_package o)) ts) as E2.
  pose proof (repositories_end camel lower_camel snake path_join o (package_dir path_join output (ko_repos o)) ts) as R2.
  unfold ks in E, E2. cbv zeta. destruct (kt_entities lower_camel path_join o _ _ _) as [entities e]. cbn [snd] in E, E2. rewrite <- E.
  destruct e; cbn [snd].
  - split; [|congruence]. intros H. exfalso. destruct (String.eqb (ko_repos o) ""); cbn [snd] in H; [discriminate|].
    destruct (kt_repositories path_join o _ _) as [repos e]. cbn [snd] in *. contradiction.
  - congruence.
  - split; [intros _; discriminate|reflexivity].
Qed.

(** ** The files *)

Section Files.
Variables camel lower_camel snake : string -> string.
Variable path_join : list string -> string.
Variable o : kt_opt.
Variable ts : list table.
Variable wanted : string -> list string.
Notation class t := (new_kt_class camel lower_camel snake o t).
Notation prefix := (get_prefix (ko_prefix o)).
Notation ks := (ks camel lower_camel snake o ts).
Notation class_named := (class_named camel prefix (ko_remove o)).
Notation names_ok := (kt_names_ok camel lower_camel prefix (ko_remove o) (ko_identity o) (ko_relation o) (ko_suffix o) ts).

Lemma tabs_ok : names_ok -> package_ok (ko_package o) ->
  (forall t, In t ts -> annotations (get_annotations (ko_anno o) (t_group t)) (wanted (t_group t))) ->
  opt_ok o /\ forall t, In t ts -> tab_ok camel lower_camel o ks t (wanted (t_group t)).
Proof.
  intros [A [B N]] P W. split; [now repeat split|]. intros t T. destruct (N t T) as [N1 [N2 N3]].
  unfold tab_ok. rewrite class_name_is. split; [exact N1|]. split; [exact N2|]. split.
  { apply Forall_forall. intros c I. destruct (N3 c I) as [C1 [C2 [C3 [C4 _]]]]. exact (conj C1 (conj C2 (conj C3 C4))). }
  split.
  { apply Forall_forall. intros c I r E Q. destruct (N3 c I) as [_ [_ [_ [_ [_ C6]]]]]. destruct (C6 r E Q) as [F1 F2]. split; [|exact F2].
    destruct (first_of ts (ref_table r) F1) as [pre [u [post [P1 [P2 P3]]]]].
    unfold JpaDescribed.ks. rewrite (class_found camel lower_camel snake o ts _ pre u post P1 P2 P3). apply identifier_word.
    apply (N u). rewrite P1. apply in_app_iff. right. now left. }
  split; [|now apply W]. intros L c I. apply key_col in I as [I K]. destruct (N3 c I) as [_ [_ [_ [_ [C5 _]]]]]. apply C5. now right.
Qed.
Lemma described : forall t, names_ok -> In t ts ->
  entity_described camel lower_camel snake prefix wanted (ko_remove o) (ko_identity o) (ko_relation o) (ko_suffix o) ts t
    (the_decls camel lower_camel snake o ks t (wanted (t_group t))).
Proof.
  intros t [_ [_ N]] T. apply entity_is. intros c I. destruct (N t T) as [_ [_ N3]]. destruct (N3 c I) as [_ [_ [C3 [C4 [C5 C6]]]]].
  split; [exact C3|]. split; [intros r E Q; now apply (C6 r E Q)|]. split; [exact C4|]. intros D. apply C5. now left.
Qed.
Lemma entities_all : forall dir l, (forall t, In t l -> exists text, entity_text lower_camel o ks (class t) = Some text /\
    read_kotlin text = Some (the_file camel lower_camel snake o ks t (wanted (t_group t)))) ->
  exists files, kt_entities lower_camel path_join o ks dir (map (new_kt_class camel lower_camel snake o) l) = (files, KtDone) /\
    Forall2 (fun t file => fst file = path_join [dir; class_named t ++ ".kt"] /\
      read_kotlin (snd file) = Some (the_file camel lower_camel snake o ks t (wanted (t_group t)))) l files.
Proof.
  intros dir l H. induction l as [|t l IH]; [exists []; split; [reflexivity|constructor]|].
  destruct (IH (fun u U => H u (or_intror U))) as [files [E F]]. destruct (H t (or_introl eq_refl)) as [text [T R]].
  cbn [map kt_entities]. rewrite T. cbv zeta. rewrite E. eexists. split; [reflexivity|]. constructor; [|exact F]. cbn [fst snd].
  split; [|exact R]. change (kc_name (class t)) with (kt_class_name camel o t). now rewrite class_name_is.
Qed.
Lemma repositories_all : forall dir l, (forall t, In t l -> exists text, repository_text o (class t) = Some text /\
    read_kotlin text = Some (the_repo camel o t)) ->
  exists files, kt_repositories path_join o dir (map (new_kt_class camel lower_camel snake o) l) = (files, KtDone) /\
    Forall2 (fun t file => fst file = path_join [dir; class_named t ++ "Repository.kt"] /\
      read_kotlin (snd file) = Some (the_repo camel o t)) l files.
Proof.
  intros dir l H. induction l as [|t l IH]; [exists []; split; [reflexivity|constructor]|].
  destruct (IH (fun u U => H u (or_intror U))) as [files [E F]]. destruct (H t (or_introl eq_refl)) as [text [T R]].
  cbn [map kt_repositories]. rewrite T. cbv zeta. rewrite E. eexists. split; [reflexivity|]. constructor; [|exact F]. cbn [fst snd].
  split; [|exact R]. change (kc_name (class t)) with (kt_class_name camel o t). now rewrite class_name_is.
Qed.
End Files.

Lemma split_empty : package_ok "" -> False.
Proof. intros H. inversion H. discriminate. Qed.
Lemma dir_is : forall path_join output p, package_ok p -> package_dir path_join output p = path_join (output :: split_on "." p).
Proof.
  intros pj output p H. unfold package_dir. destruct (String.eqb_spec p "") as [->|N]; [destruct (split_empty H)|]. now rewrite split_same.
Qed.

(** the files, exactly *)
Theorem files_exact : forall camel lower_camel snake path_join o s output wanted,
  kt_names_ok camel lower_camel (get_prefix (ko_prefix o)) (ko_remove o) (ko_identity o) (ko_relation o) (ko_suffix o) (selection o s) ->
  package_ok (ko_package o) ->
  (forall t, In t (selection o s) -> annotations (get_annotations (ko_anno o) (t_group t)) (wanted (t_group t))) ->
  (ko_repos o = "" \/ package_ok (ko_repos o) /\ forall t, In t (selection o s) -> keys t <> []) ->
  exists entities repos, kt_generate camel lower_camel snake path_join o s output = ((entities ++ repos)%list, KtDone) /\
    Forall2 (fun t file => fst file = path_join [path_join (output :: split_on "." (ko_package o)); class_named camel (get_prefix (ko_prefix o)) (ko_remove o) t ++ ".kt"] /\
       read_kotlin (snd file) = Some (the_file camel lower_camel snake o (ks camel lower_camel snake o (selection o s)) t (wanted (t_group t)))) (selection o s) entities /\
    (ko_repos o = "" /\ repos = [] \/
     ko_repos o <> "" /\
     Forall2 (fun t file => fst file = path_join [path_join (output :: split_on "." (ko_repos o)); class_named camel (get_prefix (ko_prefix o)) (ko_remove o) t ++ "Repository.kt"] /\
       read_kotlin (snd file) = Some (the_repo camel o t)) (selection o s) repos).
Proof.
  intros camel lower_camel snake path_join o s output wanted N P W R. set (ts := selection o s) in *.
  destruct (tabs_ok camel lower_camel snake o ts wanted N P W) as [O T].
  destruct (entities_all camel lower_camel snake path_join o ts wanted (package_dir path_join output (ko_package o)) ts) as [entities [E F]].
  { intros t I. apply entity_reads; [exact O|now apply T]. }
  unfold kt_generate, kt_classes. fold ts. fold (ks camel lower_camel snake o ts). cbv zeta. unfold ks at 2. rewrite E. rewrite (dir_is path_join output _ P) in F.
  destruct (String.eqb_spec (ko_repos o) "") as [Z|Z].
  - exists entities, []. rewrite app_nil_r. split; [reflexivity|]. split; [exact F|]. now left.
  - destruct R as [R|[R K]]; [contradiction|].
    destruct (repositories_all camel lower_camel snake path_join o (package_dir path_join output (ko_repos o)) ts) as [repos [E2 F2]].
    { intros t I. destruct N as [_ [_ N]]. destruct (N t I) as [_ [N2 N3]]. apply repo_reads; [exact N2| |now apply K|exact P|exact R].
      intros c C. apply (N3 c C). }
    unfold ks. rewrite E2. rewrite (dir_is path_join output _ R) in F2. exists entities, repos. split; [reflexivity|]. split; [exact F|]. right. now split.
Qed.
Theorem files_described : forall camel lower_camel snake path_join o s output wanted,
  kt_names_ok camel lower_camel (get_prefix (ko_prefix o)) (ko_remove o) (ko_identity o) (ko_relation o) (ko_suffix o) (selection o s) ->
  package_ok (ko_package o) ->
  (forall t, In t (selection o s) -> annotations (get_annotations (ko_anno o) (t_group t)) (wanted (t_group t))) ->
  (ko_repos o = "" \/ package_ok (ko_repos o) /\ forall t, In t (selection o s) -> keys t <> []) ->
  exists entities repos, kt_generate camel lower_camel snake path_join o s output = ((entities ++ repos)%list, KtDone) /\
    Forall2 (fun t file => fst file = path_join [path_join (output :: split_on "." (ko_package o)); class_named camel (get_prefix (ko_prefix o)) (ko_remove o) t ++ ".kt"] /\
       exists f, read_kotlin (snd file) = Some f /\ ki_package f = split_on "." (ko_package o) /\
         entity_described camel lower_camel snake (get_prefix (ko_prefix o)) wanted (ko_remove o) (ko_identity o) (ko_relation o) (ko_suffix o) (selection o s) t (ki_decls f))
      (selection o s) entities /\
    (ko_repos o = "" /\ repos = [] \/
     ko_repos o <> "" /\
     Forall2 (fun t file => fst file = path_join [path_join (output :: split_on "." (ko_repos o)); class_named camel (get_prefix (ko_prefix o)) (ko_remove o) t ++ "Repository.kt"] /\
       exists f, read_kotlin (snd file) = Some f /\ ki_package f = split_on "." (ko_repos o) /\
         repository_described camel (get_prefix (ko_prefix o)) (ko_remove o) (split_on "." (ko_package o)) t f) (selection o s) repos).
Proof.
  intros camel lower_camel snake path_join o s output wanted N P W R.
  destruct (files_exact camel lower_camel snake path_join o s output wanted N P W R) as [entities [repos [E [F G]]]].
  exists entities, repos. split; [exact E|]. set (ts := selection o s) in *.
  assert (M : forall (Q Q' : table -> string * string -> Prop) l x, (forall t f, In t l -> Q t f -> Q' t f) -> Forall2 Q l x -> Forall2 Q' l x).
  { intros Q Q' l x H X. induction X as [|t f l x A X IH]; [constructor|]. constructor; [apply H; [now left|exact A]|]. apply IH. intros u g U. apply H. now right. }
  split.
  - revert F. apply M. intros t f I [A B]. split; [exact A|]. eexists. split; [exact B|]. split; [reflexivity|]. now apply described.
  - destruct G as [G|[Z G]]; [now left|right]. split; [exact Z|]. destruct R as [R|[R K]]; [contradiction|].
    revert G. apply M. intros t f I [A B]. split; [exact A|]. eexists. split; [exact B|]. split; [reflexivity|]. apply repo_is. now apply K.
Qed.

(** where they are *)
Lemma entity_paths : forall lower_camel path_join o ks dir l p text,
  In (p, text) (fst (kt_entities lower_camel path_join o ks dir l)) -> exists name, p = path_join [dir; name ++ ".kt"].
Proof.
  intros lower_camel path_join o ks dir l p text. induction l as [|k l IH]; [intros []|]. cbn [kt_entities].
  destruct (entity_text lower_camel o ks k); [|intros []]. destruct (kt_entities lower_camel path_join o ks dir l) as [rest e].
  intros [Q|Q]; [injection Q as <- _; now exists (kc_name k)|now apply IH].
Qed.
Lemma repository_paths : forall path_join o dir l p text,
  In (p, text) (fst (kt_repositories path_join o dir l)) -> exists name, p = path_join [dir; name ++ ".kt"].
Proof.
  intros path_join o dir l p text. induction l as [|k l IH]; [intros []|]. cbn [kt_repositories].
  destruct (repository_text o k); [|intros []]. destruct (kt_repositories path_join o dir l) as [rest e].
  intros [Q|Q]; [injection Q as <- _; exists (kc_name k ++ "Repository"); now rewrite app_assoc_s|now apply IH].
Qed.
Theorem paths_below : forall camel lower_camel snake path_join o s output p text, ko_package o <> "" ->
  In (p, text) (fst (kt_generate camel lower_camel snake path_join o s output)) ->
  exists package name, (package = ko_package o \/ package = ko_repos o) /\
    p = path_join [path_join (output :: split_on "." package); name ++ ".kt"].
Proof.
  intros camel lower_camel snake path_join o s output p text N. unfold kt_generate. cbv zeta.
  pose proof (fun p text => entity_paths lower_camel path_join o (kt_classes camel lower_camel snake o s) (package_dir path_join output (ko_package o)) (kt_classes camel lower_camel snake o s) p text) as E.
  pose proof (fun p text => repository_paths path_join o (package_dir path_join output (ko_repos o)) (kt_classes camel lower_camel snake o s) p text) as R.
  assert (D : forall q, q <> "" -> package_dir path_join output q = path_join (output :: split_on "." q)).
  { intros q Q. unfold package_dir. destruct (String.eqb_spec q "") as [->|_]; [congruence|]. now rewrite split_same. }
  destruct (kt_entities lower_camel path_join o _ _ _) as [entities e]. cbn [fst] in *.
  assert (X : In (p, text) entities -> exists package name, (package = ko_package o \/ package = ko_repos o) /\
    p = path_join [path_join (output :: split_on "." package); name ++ ".kt"]).
  { intros I. apply E in I as [name ->]. rewrite (D _ N). exists (ko_package o), name. split; [now left|reflexivity]. }
  destruct e; cbn [fst]; try exact X. destruct (String.eqb_spec (ko_repos o) "") as [Z|Z]; cbn [fst]; [exact X|].
  destruct (kt_repositories path_join o _ _) as [repos e]. cbn [fst] in *. intros I. apply in_app_iff in I as [I|I]; [now apply X|].
  apply R in I as [name ->]. rewrite (D _ Z). exists (ko_repos o), name. split; [now right|reflexivity].
Qed.
(** without a package the output directory is forgotten *)
Theorem output_forgotten : forall camel lower_camel snake path_join o s output output', ko_package o = "" -> ko_repos o = "" ->
  kt_generate camel lower_camel snake path_join o s output = kt_generate camel lower_camel snake path_join o s output'.
Proof.
  intros camel lower_camel snake path_join o s output output' P R. unfold kt_generate. rewrite P, R. reflexivity.
Qed.
