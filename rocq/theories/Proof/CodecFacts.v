(** Reading back the documents that the package writes. *)
From Verif.Model Require Import GoStr Server Client.
From Verif.Spec Require Import ScopeSpec WireSpec RequestSpec ServerSpec ClientSpec.
From Verif.Proof Require Import StrFacts UrlFacts DecFacts JsonFacts ScopeFacts ScopeProofs WireFacts WireProofs
  NumberFacts NumberProofs IntegerProofs.
From Coq Require Import ZifyBool ZifyNat ZifyN.

(** ** Members of an object *)
Lemma members_app n a b : members n (a ++ b) = members n a ++ members n b.
Proof. unfold members. by rewrite List.filter_app, map_app. Qed.
Lemma members_cons n k v o : members n ((k, v) :: o) = (if field_match n k then [v] else []) ++ members n o.
Proof. unfold members. cbn. by destruct (field_match n k). Qed.
Lemma members_nil n : members n [] = [].
Proof. done. Qed.
Lemma members_omit_string n k v :
  members n (omit_string k v) = if field_match n k then (if seqb v "" then [] else [JStr v]) else [].
Proof. unfold omit_string. destruct (seqb v ""); unfold members; cbn; by destruct (field_match n k). Qed.
Lemma members_omit_scope n k v :
  members n (omit_scope k v) = if field_match n k then (if scope_empty v then [] else [scope_json v]) else [].
Proof. unfold omit_scope. destruct (scope_empty v); unfold members; cbn; by destruct (field_match n k). Qed.
Lemma members_omit_int n k v :
  members n (omit_int k v) = if field_match n k then (if (v =? 0)%Z then [] else [JNum (itoa v)]) else [].
Proof. unfold omit_int. destruct (v =? 0)%Z; unfold members; cbn; by destruct (field_match n k). Qed.
Lemma members_omit_map n k v :
  members n (omit_map k v) = if field_match n k then (match v with None | Some [] => [] | Some l => [JObj l] end) else [].
Proof. unfold omit_map. destruct v as [[|x l]|]; unfold members; cbn; by destruct (field_match n k). Qed.

Definition stored {A} (f : A -> json -> option A) (init : A) (l : list json) : option A :=
  fold_left (fun acc v => match acc with Some x => f x v | None => None end) l (Some init).
Lemma decode_stored {A} (f : A -> json -> option A) init n o : decode_field f init n o = stored f init (members n o).
Proof. done. Qed.

Lemma stored_string v : stored store_string "" (if seqb v "" then [] else [JStr v]) = Some v.
Proof. destruct (seqb v "") eqn:E; [apply seqb_true in E as ->|]; done. Qed.
Lemma stored_string1 v : stored store_string "" [JStr v] = Some v.
Proof. done. Qed.
Lemma stored_int1 v : int64 v -> stored store_int 0%Z [JNum (itoa v)] = Some v.
Proof. intros H. cbn. by apply parse_int64_itoa. Qed.
Lemma stored_int v : int64 v -> stored store_int 0%Z (if (v =? 0)%Z then [] else [JNum (itoa v)]) = Some v.
Proof. intros H. destruct (Z.eqb_spec v 0) as [->|]; [done|by apply stored_int1]. Qed.
Definition read_scope (sc : scope) : scope := if scope_empty sc then None else parse_scope (scope_string sc).
Lemma stored_scope sc : stored store_scope None (if scope_empty sc then [] else [scope_json sc]) = Some (read_scope sc).
Proof. unfold read_scope. by destruct (scope_empty sc). Qed.
Lemma read_scope_items sc : Forall good_item (items sc) -> items (read_scope sc) = items sc.
Proof.
  intros H. unfold read_scope. destruct (scope_empty sc) eqn:E; [|by apply c08_proof].
  apply scope_empty_spec in E. by rewrite E.
Qed.

(** ** Maps *)
Lemma map_put_last k v m : Forall (fun kv => str_leb (fst kv) k = true /\ fst kv <> k) m -> map_put k v m = m ++ [(k, v)].
Proof.
  induction 1 as [|[k' v'] m [H1 H2] _ IH]; [done|]. cbn in *.
  assert (seqb k k' = false) as -> by (apply seqb_false; congruence).
  destruct (str_leb k k') eqn:E; [|by rewrite IH]. destruct H2. by apply str_leb_antisym.
Qed.
Lemma map_put_all_sorted l m :
  StronglySorted key_before l -> Forall (fun a => Forall (key_before a) l) m -> map_put_all l m = m ++ l.
Proof.
  intros Hs. revert m. induction Hs as [|[k v] l Hs IH Hl]; intros m Hm; [by rewrite app_nil_r|].
  change (map_put_all ((k, v) :: l) m) with (map_put_all l (map_put k v m)).
  rewrite map_put_last.
  - rewrite IH.
    + by rewrite <- app_assoc.
    + apply Forall_app. split.
      * eapply Forall_impl; [exact Hm|]. intros a Ha. by inversion Ha.
      * by constructor.
  - eapply Forall_impl; [exact Hm|]. intros a Ha. inversion Ha; subst. done.
Qed.

Lemma map_put_all_nil l : StronglySorted key_before l -> map_put_all l [] = l.
Proof. intros H. by rewrite map_put_all_sorted. Qed.
Lemma keys_sorted (R : string * json -> string * json -> Prop) l l' : (forall a b, R a b -> fst a = fst b) ->
  Forall2 R l l' -> StronglySorted key_before l -> StronglySorted key_before l'.
Proof.
  intros HR HF. induction HF as [|a b l l' Hab HF IH]; intros Hs; [constructor|]. inversion Hs as [|? ? Hs' Ha]; subst.
  constructor; [by apply IH|]. clear IH Hs Hs'. induction HF as [|c d l l' Hcd HF IH]; [constructor|].
  inversion Ha as [|? ? Hc Hr]; subst. constructor; [|by apply IH]. unfold key_before in *. by rewrite <- (HR _ _ Hab), <- (HR _ _ Hcd).
Qed.

(** Values as they are stored. *)
Section Any.
Variables (num : string -> Prop) (R : string -> string -> Prop) (S : json -> json -> Prop).
Hypothesis Hnum : forall s, num s -> exists f, parse_float s = Some f /\ R s (format_float f).
Hypothesis S_nil : S JNull JNull.
Hypothesis S_bool : forall b, S (JBool b) (JBool b).
Hypothesis S_num : forall s s', R s s' -> S (JNum s) (JNum s').
Hypothesis S_str : forall s, S (JStr s) (JStr s).
Hypothesis S_arr : forall l l', Forall2 S l l' -> S (JArr l) (JArr l').
Hypothesis S_obj : forall l l', Forall2 (fun a b => fst a = fst b /\ S (snd a) (snd b)) l l' -> S (JObj l) (JObj l').

Lemma any_stored j : go_value num j -> exists j', any_of_json j = Some j' /\ S j j' /\
  match j with JObj l => exists l', any_members l = Some l' /\ j' = JObj l' /\ Forall2 (fun a b => fst a = fst b /\ S (snd a) (snd b)) l l' | _ => True end.
Proof.
  induction j as [|b|lit|s|l IH|l IH] using json_ind2; intros Hj; inversion Hj as [| |? Hn| |? HF|? Hs HF]; subst.
  - by exists JNull.
  - by exists (JBool b).
  - destruct (Hnum lit Hn) as (f & Hf & HR). exists (JNum (format_float f)). cbn. rewrite Hf. split; [done|]. split; [auto|done].
  - by exists (JStr s).
  - assert (H : exists l', all_some (map any_of_json l) = Some l' /\ Forall2 S l l').
    { clear Hj. induction HF as [|x l Hx HF IHl]; [by exists []|]. inversion IH as [|? ? IHx IH']; subst.
      destruct (IHx Hx) as (x' & Ex & HSx & _). destruct (IHl IH') as (l' & El & HSl). exists (x' :: l'). cbn. rewrite Ex, El. split; [done|by constructor]. }
    destruct H as (l' & El & HSl). exists (JArr l'). cbn [any_of_json]. rewrite El. split; [done|]. split; [by apply S_arr|done].
  - assert (H : exists l', any_members l = Some l' /\ Forall2 (fun a b => fst a = fst b /\ S (snd a) (snd b)) l l').
    { clear Hj Hs. unfold any_members. induction HF as [|[k x] l [_ Hx] HF IHl]; [by exists []|]. inversion IH as [|? ? IHx IH']; subst.
      destruct (IHx Hx) as (x' & Ex & HSx & _). destruct (IHl IH') as (l' & El & HSl). exists ((k, x') :: l'). cbn in *. rewrite Ex, El. split; [done|].
      constructor; done. }
    destruct H as (l' & El & HSl). pose proof (keys_sorted _ l l' (fun a b H => proj1 H) HSl Hs) as Hs'.
    exists (JObj l'). cbn [any_of_json]. fold (any_members l). rewrite El. cbn [option_map]. rewrite map_put_all_nil by done.
    split; [done|]. split; [by apply S_obj|]. by exists l'.
Qed.
Lemma stored_map_of m : go_map_value num m ->
  exists m', stored store_map None (match m with None | Some [] => [] | Some l => [JObj l] end) = Some m' /\
    S (JObj (default [] m)) (JObj (default [] m')).
Proof.
  intros H. assert (S (JObj []) (JObj [])) by (apply S_obj; constructor).
  destruct m as [[|x l]|]; [by exists None| |by exists None].
  pose proof (any_stored _ H) as (j' & _ & HS & l' & El & -> & HF). cbv [default id] in HS, El, HF |- *.
  exists (Some l'). cbn [default]. split; [|done].
  unfold stored. cbn [fold_left store_map default]. rewrite El. cbn [option_map]. rewrite map_put_all_nil; [done|].
  inversion H; subst. eapply keys_sorted; [|exact HF|done]. by intros a b [? _].
Qed.
End Any.

Lemma float_literal_stored s : float_literal s ->
  exists f, parse_float s = Some f /\ exists g, reads_as s g /\ reads_as (format_float f) g.
Proof.
  intros (v & Hv & Hr & Hl). destruct (parse_nearest s v Hv Hl) as [(_ & f & Hf & Hn & Hsg)|[H _]]; [|done].
  exists f. split; [done|]. exists f. split; [by exists v|]. apply format_read. apply Hn.
Qed.
Lemma stored_map m : go_map_value float_literal m ->
  exists m', stored store_map None (match m with None | Some [] => [] | Some l => [JObj l] end) = Some m' /\
    same_value (JObj (default [] m)) (JObj (default [] m')).
Proof.
  apply (stored_map_of _ (fun s s' => exists g, reads_as s g /\ reads_as s' g) same_value float_literal_stored); try (by constructor).
  intros s s' (g & H1 & H2). by econstructor.
Qed.

Lemma exact_literal_stored s : exact_literal s -> exists f, parse_float s = Some f /\ s = format_float f.
Proof.
  intros [(z & Hz & ->)|(f & Hf & ->)].
  - pose proof (integer_same z Hz) as H. destruct (parse_float (itoa z)) as [f|]; [|done]. exists f. split; [done|]. by injection H as <-.
  - exists f. split; [|done]. by apply format_read.
Qed.
Lemma stored_map_exact m : go_map_value exact_literal m ->
  exists m', stored store_map None (match m with None | Some [] => [] | Some l => [JObj l] end) = Some m' /\
    default [] m' = default [] m.
Proof.
  intros H. destruct (stored_map_of _ (fun s s' => s = s') (fun j j' => j = j') exact_literal_stored) with (m := m) as (m' & Hm & He); try done.
  - intros s s' ->. done.
  - intros l l' HF. f_equal. by induction HF as [|x y l l' -> HF ->].
  - intros l l' HF. f_equal. induction HF as [|[k x] [k' y] l l' [Hk Hx] HF ->]; [done|]. cbn in *. congruence.
  - exists m'. split; [done|]. congruence.
Qed.

(** A number beyond float64 is refused wherever it is. *)
Lemma all_some_none {A} (l : list (option A)) : In None l -> all_some l = None.
Proof. induction l as [|[x|] l IH]; intros H; [done| |done]. destruct H as [H|H]; [done|]. cbn. by rewrite IH. Qed.
Lemma number_refused s j : parse_float s = None -> number_in s j -> any_of_json j = None.
Proof.
  intros Hs. revert j. induction j as [|b|lit|s'|l IH|l IH] using json_ind2; intros Hj; inversion Hj as [|? x Hin Hx|? k x Hin Hx]; subst.
  - cbn. by rewrite Hs.
  - cbn [any_of_json]. rewrite all_some_none; [done|]. apply in_map_iff. exists x. split; [|done].
    apply (proj1 (List.Forall_forall _ _) IH x Hin Hx).
  - cbn [any_of_json]. rewrite all_some_none; [done|]. apply in_map_iff. exists (k, x). split; [|done].
    cbn. pose proof (proj1 (List.Forall_forall _ _) IH (k, x) Hin Hx) as H. cbn in H. by rewrite H.
Qed.
Lemma number_in_kind (num : string -> Prop) s j : go_value num j -> number_in s j -> num s.
Proof.
  revert j. induction j as [|b|lit|s'|l IH|l IH] using json_ind2; intros Hv Hj; inversion Hj as [|? x Hin Hx|? k x Hin Hx]; subst.
  - by inversion Hv.
  - inversion Hv as [| | | |? HF|]; subst. rewrite List.Forall_forall in IH, HF. exact (IH x Hin (HF x Hin) Hx).
  - inversion Hv as [| | | | |? _ HF]; subst. rewrite List.Forall_forall in IH, HF. exact (IH (k, x) Hin (proj2 (HF (k, x) Hin)) Hx).
Qed.
Lemma map_refused s m : parse_float s = None -> number_in s (JObj (default [] m)) ->
  stored store_map None (match m with None | Some [] => [] | Some l => [JObj l] end) = None.
Proof.
  intros Hs H. destruct m as [[|x l]|]; [by inversion H| |by inversion H]. cbn [default] in H.
  unfold stored. cbn [fold_left store_map]. apply (number_refused s) in H; [|done].
  change (option_map (fun l => JObj (map_put_all l [])) (any_members (x :: l)) = None) in H.
  destruct (any_members (x :: l)); [discriminate|done].
Qed.

(** ** Numbers *)
Lemma quot_int64 z : int64 z -> int64 (Z.quot z second).
Proof.
  unfold int64, second. intros H. assert (Z.abs (Z.quot z 1000000000) <= Z.abs z)%Z; [|].
  { rewrite <- Z.quot_abs by lia. apply Z.quot_le_upper_bound; lia. }
  destruct (Z.eq_dec z (-9223372036854775808)%Z) as [->|]; [cbn; lia|]. lia.
Qed.
Lemma exact_json_number s : exact_literal s -> json_number s.
Proof.
  intros [(z & _ & ->)|(f & Hf & ->)].
  - destruct (itoa_cases z) as [(n & -> & ->)|(n & -> & -> & _)]; eexists.
    + exists "", (dec_of_N n), "", "", "", 0%Z. split; [by left|]. split; [apply dec_number|]. split; [by left|]. split; [by left|].
      split; [by rewrite !app_nil_r_s, app_nil_s|reflexivity].
    + exists "-", (dec_of_N n), "", "", "", 0%Z. split; [right; by left|]. split; [apply dec_number|]. split; [by left|]. split; [by left|].
      split; [by rewrite !app_nil_r_s|reflexivity].
  - destruct (format_read f Hf) as [(v & Hv & _) _]. by exists v.
Qed.
Lemma go_value_ok (num : string -> Prop) j : (forall s, num s -> json_number s) -> go_value num j -> json_ok j.
Proof.
  intros Hnum. induction j as [|b|lit|s|l IH|l IH] using json_ind2; intros Hj; inversion Hj as [| | |? Hs|? HF|? Hs HF]; subst; try done.
  - apply json_number_ok. auto.
  - apply json_ok_arr. clear Hj. induction HF as [|x l Hx HF IHl]; [done|]. inversion IH; subst. constructor; auto.
  - apply json_ok_obj. clear Hj Hs. induction HF as [|x l [Hk Hx] HF IHl]; [done|]. inversion IH; subst. constructor; auto.
Qed.
Lemma nesting_jdepth j : nesting j = jdepth j.
Proof. reflexivity. Qed.
