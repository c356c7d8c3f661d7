(** JSON texts (RFC 8259) and what they say, and how a text is read into a
    structure with named members. *)
From Verif.Model Require Import GoStr Json.
From Verif.Spec Require Import ScopeSpec.
From Verif.Spec Require Export NumberSpec.

#[local] Open Scope string_scope.

(** ** Texts *)

(** White space: blanks, tabs, line feeds and carriage returns. *)
Definition white (s : string) : Prop :=
  forall a, In a (list_ascii_of_string s) -> In (N_of_ascii a) [32; 9; 10; 13]%N.

(** A text in quotes is a sequence of characters and \u escapes. *)
Inductive piece := Char (n : N) | Unit (n : N).

(** A hexadecimal digit with its value. *)
Definition hex_digit (a : ascii) (v : N) : Prop :=
  (v < 10 /\ N_of_ascii a = 48 + v)%N \/ (10 <= v < 16 /\ (N_of_ascii a = 55 + v \/ N_of_ascii a = 87 + v))%N.

(** The characters behind a backslash, with what they stand for. *)
Definition escapes : list (N * N) :=
  [(34, 34); (92, 92); (47, 47); (98, 8); (102, 12); (110, 10); (114, 13); (116, 9)]%N.

Definition back : ascii := ascii_of_N 92.
Definition quote_mark : ascii := ascii_of_N 34.

(** What stands between the quotes. A byte that belongs to no character stands
    for U+FFFD. *)
Inductive quoted : string -> list piece -> Prop :=
| quoted_nil : quoted "" []
| quoted_char n s l : scalar_value n -> (32 <= n)%N -> n <> 34%N -> n <> 92%N -> quoted s l -> quoted (utf8 n +:+ s) (Char n :: l)
| quoted_bad a s l : (128 <= N_of_ascii a)%N -> (forall n t, scalar_value n -> String a s <> utf8 n +:+ t) -> quoted s l ->
    quoted (String a s) (Char 0xfffd :: l)
| quoted_escape a n s l : In (N_of_ascii a, n) escapes -> quoted s l -> quoted (String back (String a s)) (Char n :: l)
| quoted_unit h1 h2 h3 h4 v1 v2 v3 v4 s l : hex_digit h1 v1 -> hex_digit h2 v2 -> hex_digit h3 v3 -> hex_digit h4 v4 ->
    quoted s l ->
    quoted (String back (String "u" (String h1 (String h2 (String h3 (String h4 s))))))
      (Unit (v1 * 4096 + v2 * 256 + v3 * 16 + v4) :: l).

(** \u escapes stand for UTF-16: two halves of a pair for one character, a
    single half for U+FFFD. *)
Fixpoint characters (l : list piece) : list N :=
  match l with
  | [] => []
  | Char n :: r => n :: characters r
  | Unit h :: r =>
      let single := if ((0xd800 <=? h) && (h <? 0xe000))%N then 0xfffd%N else h in
      match r with
      | Unit t :: r' =>
          if ((0xd800 <=? h) && (h <? 0xdc00) && (0xdc00 <=? t) && (t <? 0xe000))%N
          then (0x10000 + (h - 0xd800) * 0x400 + (t - 0xdc00))%N :: characters r'
          else single :: characters r
      | _ => single :: characters r
      end
  end.
Definition text_of (l : list piece) : string := concat_all (map utf8 (characters l)).

(** [says s j]: the text [s], without white space around it, says [j]. *)
Inductive says : string -> json -> Prop :=
| says_null : says "null" JNull
| says_true : says "true" (JBool true)
| says_false : says "false" (JBool false)
| says_number s : json_number s -> says s (JNum s)
| says_string s l : quoted s l -> says (String quote_mark (s +:+ String quote_mark "")) (JStr (text_of l))
| says_no_elements w : white w -> says ("[" +:+ w +:+ "]") (JArr [])
| says_elements s l : says_list s l -> says ("[" +:+ s +:+ "]") (JArr l)
| says_no_members w : white w -> says ("{" +:+ w +:+ "}") (JObj [])
| says_members s l : says_table s l -> says ("{" +:+ s +:+ "}") (JObj l)
with says_list : string -> list json -> Prop :=
| list_one w1 s w2 j : white w1 -> white w2 -> says s j -> says_list (w1 +:+ s +:+ w2) [j]
| list_more w1 s w2 j t l : white w1 -> white w2 -> says s j -> says_list t l ->
    says_list (w1 +:+ s +:+ w2 +:+ "," +:+ t) (j :: l)
with says_table : string -> list (string * json) -> Prop :=
| table_one w1 k q w2 w3 s w4 j : white w1 -> white w2 -> white w3 -> white w4 -> quoted k q -> says s j ->
    says_table (w1 +:+ String quote_mark (k +:+ String quote_mark (w2 +:+ ":" +:+ w3 +:+ s +:+ w4))) [(text_of q, j)]
| table_more w1 k q w2 w3 s w4 j t l : white w1 -> white w2 -> white w3 -> white w4 -> quoted k q -> says s j ->
    says_table t l ->
    says_table (w1 +:+ String quote_mark (k +:+ String quote_mark (w2 +:+ ":" +:+ w3 +:+ s +:+ w4 +:+ "," +:+ t)))
      ((text_of q, j) :: l).

(** A JSON text, and how deep its arrays and objects are nested. *)
Definition json_text (s : string) (j : json) : Prop :=
  exists w1 t w2, s = w1 +:+ t +:+ w2 /\ white w1 /\ white w2 /\ says t j.
Fixpoint levels (j : json) : N :=
  match j with
  | JArr l => 1 + fold_right (fun x m => N.max (levels x) m) 0 l
  | JObj l => 1 + fold_right (fun kv m => N.max (levels (snd kv)) m) 0 l
  | _ => 0
  end%N.
