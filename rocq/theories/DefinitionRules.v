(* Running the parser on a statement that is a list of phrases (DefinitionSpec.v). *)
From Verif Require Import Chars Token Cst Core MiniRust Program Bundles ParserView ParserGeneric ShapeSound GroupingSpec GroupingExpr
  Forward GrammarSpec GrammarTactics GrammarExpr GrammarReach GrammarOps GrammarBinary GrammarItems GrammarTypes GrammarCalls GrammarQuery GrammarSelect
  DefinitionSpec StatementSpec StatementDeeds StatementDml.
Local Open Scope string_scope.
Local Open Scope list_scope.
Local Notation length := List.length.

Section WithUnicode.
Context (U : unicode) (HU : ascii_faithful U).
Local Notation steps := (steps U).
Local Notation calls := (calls U).
Local Notation is_word := (is_word U).
Local Notation word_in := (word_in U).
Local Notation tree := (tree U).
Local Notation wf := (wf U).
Local Notation fits := (fits_known U).
Local Notation led := (led U).
Local Notation wf_part := (wf_part U).
Local Notation wf_parts := (wf_parts U).
Local Notation kids_part := (kids_part U).
Local Notation kids_parts := (kids_parts U).
Local Notation stops := (stops U).
Ltac ahead ::= first [apply tok_yield | apply tok_items | apply tok_query | apply tok_type | apply tok_table | eassumption].
Ltac call ::= eassumption.
Ltac special ::= fail.

(* ----- what is known of the first token of a phrase ----- *)
Definition not_names : list string := KEYWORDS ++ ["("; ")"; ","; "."; ";"; ""; ">"; "<"].
Lemma never_ok : forallb not_name not_names = true. Proof. vm_compute. reflexivity. Qed.
Definition shape_lead (s : shape) : known :=
  match s with
  | AWord ws => Among ws
  | TheWords wss => Among (map (hd "") wss)
  | TheChain wss => Among (hd [] wss)
  | AName ws => Avoids (ws ++ not_names)
  | WordName w | WordExpr w | WordIdent w | Options w _ | ListBy w | WordExprs w | WordDeclared w | Replica w => Among [w]
  | AGroup | ColumnsOrAll | ADeclared _ _ => Among ["("]
  | DefaultCollate => Among ["DEFAULT"]
  | Connection r _ => Among [if r : bool then "REMOTE" else "WITH"]
  | AsQuery _ | Body | ReplicaOf => Among ["AS"]
  | AnExpr | Exprs => Avoids []
  | PartitionColumns => Among ["WITH"]
  | Returns => Among ["RETURNS"]
  | LikeOrCopy => Among ["LIKE"; "COPY"]
  | GrantTo => Among ["GRANT"]
  | Changes d => Among [match d with AddingColumns | AddingConstraints => "ADD" | Dropping => "DROP" | Renaming => "RENAME" end]
  | AlterColumn => Among ["ALTER"]
  | ViewColumns => Among ["("]
  | CloneOf => Among ["CLONE"]
  end.
Definition among (w : string) (ws : list string) : bool := existsb (String.eqb w) ws.
Definition either (a b : known) : known :=
  match a, b with
  | Among x, Among y => Among (x ++ y)
  | Among x, Avoids y | Avoids y, Among x => Avoids (filter (fun w => negb (among w x)) y)
  | Avoids x, Avoids y => Avoids (filter (fun w => among w y) x)
  end.
Fixpoint lead (fs : list slot) : known :=
  match fs with
  | [] => Among [";"; ""]
  | Need _ s :: _ => shape_lead s
  | May _ s :: fs => either (shape_lead s) (lead fs)
  end.
Lemma among_in w ws : among w ws = true <-> In w ws.
Proof. unfold among. rewrite existsb_exists. split; [intros (x & I & E); apply String.eqb_eq in E; now subst|intro I; exists w; split; [exact I|apply String.eqb_refl]]. Qed.
Lemma fits_in b ws : fits (Among ws) (b_tok b) <-> word_in b ws.
Proof. split; [apply among_word|apply fits_among]. Qed.
Lemma fits_out b ws : fits (Avoids ws) (b_tok b) <-> ~ word_in b ws.
Proof.
  split; [|apply fits_avoids]. intros A W. apply fits_among in W. cbn [fits_known] in *. congruence.
Qed.
Lemma word_unique b w w' : is_word b w -> is_word b w' -> w = w'.
Proof. unfold GrammarSpec.is_word. intros E1 E2. rewrite E1 in E2. now apply s_inj. Qed.
Lemma either_left a b t : fits a (b_tok t) -> fits (either a b) (b_tok t).
Proof.
  destruct a as [x|x], b as [y|y]; cbn [either]; rewrite ?fits_in, ?fits_out.
  - intros (w & I & W). exists w. split; [apply in_or_app; now left|exact W].
  - intros (w & I & W) (w' & I' & W'). apply filter_In in I' as (_ & I'). rewrite <- (word_unique _ _ _ W W') in I'. apply among_in in I. now rewrite I in I'.
  - intros N (w & I & W). apply filter_In in I as (I & _). apply N. now exists w.
  - intros N (w & I & W). apply filter_In in I as (I & _). apply N. now exists w.
Qed.
Lemma either_right a b t : fits b (b_tok t) -> fits (either a b) (b_tok t).
Proof.
  destruct a as [x|x], b as [y|y]; cbn [either]; rewrite ?fits_in, ?fits_out.
  - intros (w & I & W). exists w. split; [apply in_or_app; now right|exact W].
  - intros N (w & I & W). apply filter_In in I as (I & _). apply N. now exists w.
  - intros (w & I & W) (w' & I' & W'). apply filter_In in I' as (_ & I'). rewrite <- (word_unique _ _ _ W W') in I'. apply among_in in I. now rewrite I in I'.
  - intros N (w & I & W). apply filter_In in I as (_ & I). apply N. exists w. split; [now apply among_in|exact W].
Qed.
Lemma part_lead s p next : wf_part s p next -> exists f r, yield_part p = f :: r /\ fits (shape_lead s) (b_tok f).
Proof.
  assert (G : forall named g, wf_group U named g -> exists f r, yield_group g = f :: r /\ fits (Among ["("]) (b_tok f)).
  { intros named [lp es rp] (K & _). cbn [yield_group]. eauto using fits_word. }
  assert (D : forall sc fn g, wf_declared U sc fn g -> exists f r, yield_declared g = f :: r /\ fits (Among ["("]) (b_tok f)).
  { intros sc fn [lp ds rp] (K & _). cbn [yield_declared]. eauto using fits_word. }
  destruct s, p; cbn [DefinitionSpec.wf_part yield_part shape_lead]; try contradiction.
  - rewrite <- fits_in. eauto.
  - intros ([|w ws] & I & W); cbn [words_are] in W; [contradiction|]. destruct W as (W & _). do 2 eexists. split; [reflexivity|]. apply fits_in. exists w.
    split; [|exact W]. apply in_map_iff. now exists (w :: ws).
  - destruct wss as [|ws wss]; cbn [words_in hd]; [contradiction|]. intros (W & _). rewrite <- fits_in in W. eauto.
  - intros (P & N & _). destruct (first_yield p) as (r & ->). do 2 eexists. split; [reflexivity|]. apply avoids_both; [now apply fits_avoids|].
    now apply (path_first_avoids U HU), never_ok.
  - intros (K & _). eauto using fits_word.
  - intros (K & _). eauto using fits_word.
  - intros (K & _). eauto using fits_word.
  - apply G.
  - apply G.
  - intros (K & _). eauto using fits_word.
  - intros (K & _). eauto using fits_word.
  - intros (K & _). eauto using fits_word.
  - intros (K & _). eauto using fits_word.
  - intros (K & Kw & _). destruct r as [r|]; cbn [opt app].
    + destruct K as (-> & K). eauto using fits_word.
    + subst remote. eauto using fits_word.
  - intros (K & _). eauto using fits_word.
  - intros _. destruct (first_yield e) as (r & ->). do 2 eexists. split; [reflexivity|]. reflexivity.
  - intros _. destruct (yields es) as [|f r] eqn:E; [|do 2 eexists; split; [reflexivity|]; reflexivity].
    pose proof (tok_items es []) as T. rewrite E in T. discriminate T.
  - intros (K & _). eauto using fits_word.
  - apply D.
  - intros (K & _). eauto using fits_word.
  - intros (K & _). eauto using fits_word.
  - intros (K & _). eauto using fits_word.
  - intros (K & _). eauto using fits_word.
  - intros (K & _). rewrite <- fits_in in K. eauto.
  - intros (K & _). eauto using fits_word.
  - intros (K & _). eauto using fits_word.
  - intros (K & _). eauto using fits_word.
  - intro W. assert (H : exists c l, yield_changes cs = yield_change c ++ l /\ exists nx, wf_change U d c nx) by (destruct cs as [c|c m r]; cbn [wf_changes yield_changes] in *;
      [exists c, []; split; [now rewrite app_nil_r|eauto] | exists c, (m :: yield_changes r); split; [reflexivity|exists m; apply W]]).
    destruct H as (c & l & -> & nx & Wc). destruct d, c; cbn [wf_change] in Wc; try contradiction; destruct Wc as (K & _); cbn [yield_change app]; eauto using fits_word.
  - intros (K & _). eauto using fits_word.
  - intros (K & _). eauto using fits_word.
  - intros (K & _). eauto using fits_word.
Qed.

(* ----- the rest of a statement ----- *)
Definition tails (fs : list slot) (l : list bundle) : Prop :=
  exists ps sp so next rest, wf_parts fs ps next /\ stops sp so next rest /\ l = yield_parts ps ++ next :: rest.
Lemma tails_need k s fs l : tails (Need k s :: fs) l -> exists p l', l = yield_part p ++ l' /\ tails fs l' /\ wf_part s p (hd (Bundle [] eof_token []) l').
Proof.
  intros ([|[p|] ps] & sp & so & next & rest & W & S & ->); cbn [DefinitionSpec.wf_parts] in W; try contradiction. destruct W as (Wp & W).
  exists p, (yield_parts ps ++ next :: rest). split; [cbn [yield_parts]; now rewrite <- app_assoc|]. split; [exists ps, sp, so, next, rest; auto|].
  destruct (yield_parts ps); exact Wp.
Qed.
Lemma tails_may k s fs l : tails (May k s :: fs) l -> tails fs l \/ exists p l', l = yield_part p ++ l' /\ tails fs l' /\ wf_part s p (hd (Bundle [] eof_token []) l').
Proof.
  intros ([|[p|] ps] & sp & so & next & rest & W & S & ->); cbn [DefinitionSpec.wf_parts] in W; try contradiction.
  - right. apply (tails_need k s). exists (Some p :: ps), sp, so, next, rest. auto.
  - left. exists ps, sp, so, next, rest. auto.
Qed.
Lemma tails_lead fs : forall l, tails fs l -> exists f r, l = f :: r /\ fits (lead fs) (b_tok f).
Proof.
  induction fs as [|[k s|k s] fs IH]; intros l T.
  - destruct T as ([|] & sp & so & next & rest & W & S & ->); cbn [DefinitionSpec.wf_parts] in W; [|contradiction]. cbn [yield_parts app]. do 2 eexists. split; [reflexivity|].
    eapply stops_known. exact S.
  - apply tails_need in T as (p & l' & -> & _ & W). apply part_lead in W as (f & r & -> & F). cbn [app]. eauto.
  - apply tails_may in T as [T|(p & l' & -> & _ & W)].
    + destruct (IH l T) as (f & r & -> & F). do 2 eexists. split; [reflexivity|]. now apply either_right.
    + apply part_lead in W as (f & r & -> & F). cbn [app]. do 2 eexists. split; [reflexivity|]. now apply either_left.
Qed.

(* ----- adding children ----- *)
Definition with_kids (kids : list (string * content)) (n : node) : node := fold_left (fun n kv => with_kid (fst kv) (snd kv) n) kids n.
Definition with_parts (fs : list slot) (ps : list (option part)) (n : node) : node := with_kids (kids_parts fs ps) n.
Lemma with_kids_app a b n : with_kids (a ++ b) n = with_kids b (with_kids a n).
Proof. apply fold_left_app. Qed.
Lemma insert_new k (v : content) : forall kids, ~ In k (map fst kids) -> map_insert k v kids = kids ++ [(k, v)].
Proof.
  induction kids as [|(k' & v') kids IH]; cbn [map_insert map fst In app]; intro N; [reflexivity|]. destruct (String.eqb_spec k k') as [->|_]; [tauto|]. now rewrite IH by tauto.
Qed.
Lemma with_kids_made ty b kids : forall pre, NoDup (map fst (pre ++ kids)) -> forallb (fun k => negb (comment_key k)) (map fst kids) = true ->
  with_kids kids (made ty b pre) = made ty b (pre ++ kids).
Proof.
  induction kids as [|(k & v) kids IH]; cbn [with_kids fold_left fst snd map forallb]; intros pre N C; [now rewrite app_nil_r|].
  apply andb_prop in C as (C1 & C2). apply negb_true_iff in C1. rewrite with_kid_made by exact C1. rewrite insert_new.
  - change (pre ++ (k, v) :: kids) with (pre ++ [(k, v)] ++ kids). rewrite app_assoc. apply IH; [|exact C2]. now rewrite <- app_assoc.
  - rewrite map_app in N. apply NoDup_remove_2 in N. intro I. apply N. apply in_or_app. now left.
Qed.
(* the keys a phrase can be kept under *)
Definition keys_of (s : slot) : list string :=
  match s with Need k s | May k s => k :: match s with LikeOrCopy => ["source_table"] | GrantTo => ["to"] | _ => [] end end.
Fixpoint distinct (l : list string) : bool := match l with [] => true | w :: l => negb (among w l) && distinct l end.
Definition keys_fine (l : list string) : bool := distinct l && forallb (fun k => negb (comment_key k)) l.
Inductive sub {A} : list A -> list A -> Prop := sub_nil : sub [] [] | sub_skip x a b : sub a b -> sub a (x :: b) | sub_keep x a b : sub a b -> sub (x :: a) (x :: b).
Lemma sub_app {A} (a b c d : list A) : sub a b -> sub c d -> sub (a ++ c) (b ++ d).
Proof. induction 1; cbn [app]; intro S; [exact S|apply sub_skip|apply sub_keep]; auto. Qed.
Lemma sub_refl {A} (a : list A) : sub a a. Proof. induction a; [apply sub_nil|now apply sub_keep]. Qed.
Lemma sub_none {A} (a : list A) : sub [] a. Proof. induction a; [apply sub_nil|now apply sub_skip]. Qed.
Lemma sub_in {A} (a b : list A) x : sub a b -> In x a -> In x b.
Proof. induction 1; cbn [In]; intuition. Qed.
Lemma sub_fine a b : sub a b -> keys_fine b = true -> NoDup a /\ forallb (fun k => negb (comment_key k)) a = true.
Proof.
  unfold keys_fine. induction 1 as [|x a b S IH|x a b S IH]; cbn [distinct forallb]; intro F.
  - split; [constructor|reflexivity].
  - apply IH. apply andb_prop in F as (F1 & F2). apply andb_prop in F1 as (_ & F1). apply andb_prop in F2 as (_ & F2). now rewrite F1, F2.
  - apply andb_prop in F as (F1 & F2). apply andb_prop in F1 as (N & F1). apply andb_prop in F2 as (C & F2). destruct IH as (IH1 & IH2); [now rewrite F1, F2|].
    split; [constructor; [|exact IH1]|now rewrite C]. intro I. apply (sub_in _ _ _ S) in I. apply among_in in I. now rewrite I in N.
Qed.
Lemma kids_keys fs : forall ps next, wf_parts fs ps next -> sub (map fst (kids_parts fs ps)) (flat_map keys_of fs).
Proof.
  induction fs as [|s fs IH]; intros ps next W; [destruct ps; cbn; constructor|].
  assert (K : forall k sh p nx, wf_part sh p nx -> sub (map fst (kids_part k p)) (keys_of (Need k sh))).
  { intros k sh p nx Wp. destruct sh, p; cbn [DefinitionSpec.wf_part] in Wp; try contradiction; cbn [DefinitionSpec.kids_part keys_of map fst]; try apply sub_refl.
    all: destruct r; apply sub_refl. }
  destruct s as [k s|k s], ps as [|[p|] ps]; cbn [DefinitionSpec.wf_parts] in W; try contradiction; cbn [DefinitionSpec.kids_parts flat_map].
  - destruct W as (Wp & W). rewrite map_app. apply sub_app; [exact (K k _ _ _ Wp)|now apply (IH _ next)].
  - destruct W as (Wp & W). rewrite map_app. apply sub_app; [exact (K k _ _ _ Wp)|now apply (IH _ next)].
  - apply (sub_app [] _ _ _); [apply sub_none|now apply (IH _ next)].
Qed.
Lemma with_parts_made fs ps next ty b : wf_parts fs ps next -> keys_fine (flat_map keys_of fs) = true -> with_parts fs ps (made ty b []) = made ty b (kids_parts fs ps).
Proof.
  intros W F. apply kids_keys in W. apply sub_fine with (a := map fst (kids_parts fs ps)) in F as (N & C); [|exact W]. unfold with_parts. now rewrite with_kids_made.
Qed.
Lemma wf_parts_app fs gs : forall ps next, wf_parts (fs ++ gs) ps next ->
  exists ps1 ps2, ps = ps1 ++ ps2 /\ wf_parts fs ps1 (hd next (yield_parts ps2)) /\ wf_parts gs ps2 next.
Proof.
  induction fs as [|s fs IH]; intros ps next W; [exists [], ps; cbn; auto|]. cbn [app] in W.
  assert (X : forall ps1 ps2, hd next (yield_parts (ps1 ++ ps2)) = hd (hd next (yield_parts ps2)) (yield_parts ps1)).
  { induction ps1 as [|[p|] ps1 IH1]; intros ps2; cbn [yield_parts app hd]; [reflexivity| |apply IH1].
    destruct (yield_part p) eqn:E; [cbn [app]; apply IH1|reflexivity]. }
  destruct s as [k s|k s], ps as [|[p|] ps]; cbn [DefinitionSpec.wf_parts] in W; try contradiction.
  - destruct W as (Wp & W). destruct (IH _ _ W) as (ps1 & ps2 & -> & W1 & W2). exists (Some p :: ps1), ps2. cbn [DefinitionSpec.wf_parts app]. rewrite X in Wp. auto.
  - destruct W as (Wp & W). destruct (IH _ _ W) as (ps1 & ps2 & -> & W1 & W2). exists (Some p :: ps1), ps2. cbn [DefinitionSpec.wf_parts app]. rewrite X in Wp. auto.
  - destruct (IH _ _ W) as (ps1 & ps2 & -> & W1 & W2). exists (None :: ps1), ps2. cbn [DefinitionSpec.wf_parts app]. auto.
Qed.
Lemma yield_parts_app a b : yield_parts (a ++ b) = yield_parts a ++ yield_parts b.
Proof. induction a as [|[p|] a IH]; cbn [yield_parts app]; [reflexivity|now rewrite IH, app_assoc|exact IH]. Qed.
Lemma kids_parts_app fs gs ps1 ps2 next : wf_parts fs ps1 next -> kids_parts (fs ++ gs) (ps1 ++ ps2) = kids_parts fs ps1 ++ kids_parts gs ps2.
Proof.
  revert ps1. induction fs as [|s fs IH]; intros ps1 W; [destruct ps1; [reflexivity|contradiction]|].
  destruct s as [k s|k s], ps1 as [|[p|] ps1]; cbn [DefinitionSpec.wf_parts] in W; try contradiction; cbn [DefinitionSpec.kids_parts app].
  - destruct W as (_ & W). now rewrite IH, app_assoc.
  - destruct W as (_ & W). now rewrite IH, app_assoc.
  - now apply IH.
Qed.

(* ----- running a command over phrases ----- *)
(* [E sp n]: the variables, where [n] is the node that is built and [sp] tells whether a semicolon is part of the statement *)
Definition runs (c : cmd fn) (E : bool -> node -> env) (fs : list slot) (E' : bool -> node -> env) (suffix : list slot) : Prop :=
  forall sp n ps b f R, tails suffix (f :: R) -> fits (lead suffix) (b_tok f) -> wf_parts fs ps f ->
  exists b', steps c (E sp n) (b :: yield_parts ps ++ f :: R) Norm (E' sp (with_parts fs ps n)) (b' :: f :: R).
Definition finishes (c : cmd fn) (E : bool -> node -> env) (fs : list slot) : Prop :=
  forall sp so n ps b next rest, wf_parts fs ps next -> stops sp so next rest ->
  exists b' e', steps c (E sp n) (b :: yield_parts ps ++ next :: rest) (Ret (VNode (with_semi so (with_parts fs ps n)))) e' (left_over so b' next rest).
Lemma finishes_more c E fs E' gs k : runs c E fs E' gs -> finishes k E' gs -> finishes (Seq c k) E (fs ++ gs).
Proof.
  intros R F sp so n ps b next rest W S. apply wf_parts_app in W as (ps1 & ps2 & -> & W1 & W2).
  assert (T : tails gs (yield_parts ps2 ++ next :: rest)) by (exists ps2, sp, so, next, rest; auto).
  destruct (tails_lead gs _ T) as (f & r & Y & L).
  assert (H : hd next (yield_parts ps2) = f) by (destruct (yield_parts ps2); cbn [app hd] in *; congruence). rewrite H in W1.
  rewrite Y in T. destruct (R sp n ps1 b f r T L W1) as (b1 & S1). destruct (F sp so (with_parts fs ps1 n) ps2 b1 next rest W2 S) as (b2 & e2 & S2).
  exists b2, e2. rewrite yield_parts_app, <- app_assoc, Y. eapply steps_seq; [exact S1|]. unfold with_parts in *. rewrite (kids_parts_app _ _ _ _ f W1), with_kids_app, <- Y. exact S2.
Qed.
Lemma finishes_assoc a b c E fs : finishes (Seq (Seq a b) c) E fs -> finishes (Seq a (Seq b c)) E fs.
Proof. intros F sp so n ps b0 next rest W S. destruct (F sp so n ps b0 next rest W S) as (b' & e' & H). exists b', e'. now apply steps_assoc. Qed.
Lemma tails_app gs suffix ps2 f R : tails suffix (f :: R) -> wf_parts gs ps2 f -> tails (gs ++ suffix) (yield_parts ps2 ++ f :: R).
Proof.
  intros T W2. destruct T as (ps3 & sp3 & so3 & next & rest & W3 & S3 & Y3). exists (ps2 ++ ps3), sp3, so3, next, rest. split; [|split; [exact S3|now rewrite yield_parts_app, <- app_assoc, Y3]].
  assert (Hf : hd next (yield_parts ps3) = f) by (destruct (yield_parts ps3); cbn [app hd] in *; congruence).
  clear - W2 W3 Hf. revert gs W2. induction ps2 as [|o ps2 IH]; intros gs W2; [destruct gs; [exact W3|destruct s; contradiction]|].
  assert (X : hd next (yield_parts (ps2 ++ ps3)) = hd f (yield_parts ps2)).
  { rewrite yield_parts_app. destruct (yield_parts ps2); cbn [app hd]; [exact Hf|reflexivity]. }
  destruct gs as [|[k s|k s] gs]; [destruct o; contradiction| |]; destruct o as [p|]; cbn [DefinitionSpec.wf_parts app] in *; try contradiction; rewrite ?X; try (split; [apply W2|]); apply IH; apply W2.
Qed.
Lemma runs_seq a b E fs E' gs E'' suffix : runs a E fs E' (gs ++ suffix) -> runs b E' gs E'' suffix -> runs (Seq a b) E (fs ++ gs) E'' suffix.
Proof.
  intros A B sp n ps b0 f R T L W. apply wf_parts_app in W as (ps1 & ps2 & -> & W1 & W2).
  pose proof (tails_app gs suffix ps2 f R T W2) as T'.
  destruct (tails_lead _ _ T') as (f' & r' & Y & L').
  assert (H : hd f (yield_parts ps2) = f') by (destruct (yield_parts ps2); cbn [app hd] in *; congruence). rewrite H in W1.
  rewrite Y in T'. destruct (A sp n ps1 b0 f' r' T' L' W1) as (b1 & S1). destruct (B sp (with_parts fs ps1 n) ps2 b1 f R T L W2) as (b2 & S2).
  exists b2. rewrite yield_parts_app, <- app_assoc, Y. eapply steps_seq; [exact S1|]. unfold with_parts in *. rewrite (kids_parts_app _ _ _ _ f' W1), with_kids_app, <- Y. exact S2.
Qed.
Lemma finishes_tail x E : (forall sp n, env_get x (E sp n) = Some (VNode n)) -> (forall sp n, env_get "semicolon" (E sp n) = Some (VBool sp)) -> finishes (tail x) E [].
Proof.
  intros G Gs sp so n ps b next rest W S. destruct ps; [|contradiction]. cbn [yield_parts app]. exists b. eexists. eapply (tail_steps U HU); [apply G|apply Gs|]. eapply stops_shut. exact S.
Qed.
Lemma finishes_read f ty x c d k : forall sp so ps next rest, prog f = {| f_params := ["semicolon"]; f_body := Seq (LetNode x (EConstruct ty)) c |} ->
  snd (fst (form d)) = ty -> nt_eqb ty N_EOF = false -> nt_eqb ty N_Unknown = false -> keys_fine (flat_map keys_of (snd (form d))) = true ->
  finishes c (fun sp n => [(x, VNode n); ("semicolon", VBool sp)]) (snd (form d)) -> wf_definition U d k ps next -> stops sp so next rest ->
  exists b, calls f [VBool sp] (k :: yield_parts ps ++ next :: rest) (VNode (tree_definition U d k ps so)) (left_over so b next rest).
Proof.
  intros sp so ps next rest P Ty T1 T2 Kf F (_ & W) S. destruct (F sp so (made ty k []) ps k next rest W S) as (b' & e' & St). exists b'.
  eapply calls_body; [now rewrite P|]. rewrite P. cbn [f_body f_params combine]. eapply steps_seq; [eapply steps_let; now apply makes_word|].
  unfold tree_definition. rewrite Ty. rewrite (with_parts_made _ _ next _ _ W Kf) in St. exact St.
Qed.
End WithUnicode.
