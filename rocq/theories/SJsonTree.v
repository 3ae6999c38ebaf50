(** JSON documents of any shape and depth as text, and the tokens a tokenizer owes
    to them. *)
From Verif Require Import Base MJsmn.
Open Scope N_scope.

(** A value; elements and members come with the white space around them. *)
Inductive json :=
| JText (s : bytes)                      (* between quotes, escapes as written *)
| JWord (s : bytes)                      (* a number, true, false or null *)
| JList (w : bytes) (l : elements)
| JTable (w : bytes) (l : members)
with elements :=
| ENone
| EMore (w1 : bytes) (v : json) (w2 : bytes) (l : elements)
with members :=
| MNone
| MMore (w1 key w2 w3 : bytes) (v : json) (w4 : bytes) (l : members).

(** The text. [first] says whether no comma comes before. *)
Fixpoint text (v : json) : bytes :=
  match v with
  | JText s => [34] ++ s ++ [34]
  | JWord s => s
  | JList w l => [91] ++ w ++ elements_text true l ++ [93]
  | JTable w l => [123] ++ w ++ members_text true l ++ [125]
  end
with elements_text (first : bool) (l : elements) : bytes :=
  match l with
  | ENone => []
  | EMore w1 v w2 l => (if first then [] else [44]) ++ w1 ++ text v ++ w2 ++ elements_text false l
  end
with members_text (first : bool) (l : members) : bytes :=
  match l with
  | MNone => []
  | MMore w1 key w2 w3 v w4 l =>
    (if first then [] else [44]) ++ w1 ++ ([34] ++ key ++ [34]) ++ w2 ++ [58] ++ w3 ++ text v ++ w4 ++ members_text false l
  end.

(** RFC 8259: white space, the characters of strings with their escapes, words. *)
Definition space (c : N) : Prop := c = 32 \/ c = 9 \/ c = 10 \/ c = 13.
Definition hex (c : N) : Prop := 48 <= c <= 57 \/ 65 <= c <= 70 \/ 97 <= c <= 102.
Inductive string_text : bytes -> Prop :=
| st_end : string_text []
| st_char : forall c r, 32 <= c -> c < 256 -> c <> 34 -> c <> 92 -> string_text r -> string_text (c :: r)
| st_escape : forall c r, In c (s2b "\/bfnrt" ++ [34]) -> string_text r -> string_text (92 :: c :: r)
| st_unicode : forall a b c d r, hex a -> hex b -> hex c -> hex d -> string_text r -> string_text (92 :: 117 :: a :: b :: c :: d :: r).
Definition word_char (c : N) : Prop := 48 <= c <= 57 \/ 65 <= c <= 90 \/ 97 <= c <= 122 \/ c = 43 \/ c = 45 \/ c = 46.

Fixpoint proper (v : json) : Prop :=
  match v with
  | JText s => string_text s
  | JWord s => s <> [] /\ Forall word_char s
  | JList w l => Forall space w /\ proper_elements l
  | JTable w l => Forall space w /\ proper_members l
  end
with proper_elements (l : elements) : Prop :=
  match l with
  | ENone => True
  | EMore w1 v w2 l => Forall space w1 /\ proper v /\ Forall space w2 /\ proper_elements l
  end
with proper_members (l : members) : Prop :=
  match l with
  | MNone => True
  | MMore w1 key w2 w3 v w4 l => Forall space w1 /\ string_text key /\ Forall space w2 /\ Forall space w3 /\ proper v /\ Forall space w4 /\ proper_members l
  end.

(** The number of elements and of members. *)
Fixpoint elements_count (l : elements) : Z := match l with ENone => 0 | EMore _ _ _ l => 1 + elements_count l end.
Fixpoint members_count (l : members) : Z := match l with MNone => 0 | MMore _ _ _ _ _ _ l => 1 + members_count l end.

(** The tokens of a value whose text starts at [p]: one for every value and every
    key, in the order of the text, with the place of the text without quotes; the
    size is the number of elements or members, one for a key, none for a string
    or a word. *)
Fixpoint tokens (p : N) (v : json) : list token :=
  match v with
  | JText s => [mk_tok TString (Z.of_N (p + 1)) (Z.of_N (p + 1 + blen s)) 0]
  | JWord s => [mk_tok TPrim (Z.of_N p) (Z.of_N (p + blen s)) 0]
  | JList w l => mk_tok TArray (Z.of_N p) (Z.of_N (p + blen (text (JList w l)))) (elements_count l) :: elements_tokens (p + 1 + blen w) true l
  | JTable w l => mk_tok TObject (Z.of_N p) (Z.of_N (p + blen (text (JTable w l)))) (members_count l) :: members_tokens (p + 1 + blen w) true l
  end
with elements_tokens (p : N) (first : bool) (l : elements) : list token :=
  match l with
  | ENone => []
  | EMore w1 v w2 l =>
    let q := p + (if first then 0 else 1) + blen w1 in
    tokens q v ++ elements_tokens (q + blen (text v) + blen w2) false l
  end
with members_tokens (p : N) (first : bool) (l : members) : list token :=
  match l with
  | MNone => []
  | MMore w1 key w2 w3 v w4 l =>
    let k := p + (if first then 0 else 1) + blen w1 in
    let q := k + blen key + 2 + blen w2 + 1 + blen w3 in
    mk_tok TString (Z.of_N (k + 1)) (Z.of_N (k + 1 + blen key)) 1 :: tokens q v ++ members_tokens (q + blen (text v) + blen w4) false l
  end.

(** What a reader expects of the tokens, without any position: the kind, the
    number of things inside, and the text, of every value and every key in order. *)
Fixpoint pieces (v : json) : list (toktype * Z * bytes) :=
  match v with
  | JText s => [(TString, 0%Z, s)]
  | JWord s => [(TPrim, 0%Z, s)]
  | JList w l => (TArray, elements_count l, text (JList w l)) :: elements_pieces l
  | JTable w l => (TObject, members_count l, text (JTable w l)) :: members_pieces l
  end
with elements_pieces (l : elements) : list (toktype * Z * bytes) :=
  match l with ENone => [] | EMore _ v _ l => pieces v ++ elements_pieces l end
with members_pieces (l : members) : list (toktype * Z * bytes) :=
  match l with MNone => [] | MMore _ key _ _ v _ l => (TString, 1%Z, key) :: pieces v ++ members_pieces l end.

(** What a token says of the text it came from. *)
Definition look (doc : bytes) (t : token) : toktype * Z * bytes :=
  (tk_type t, tk_size t, firstn (Z.to_nat (tk_end t - tk_start t)) (skipn (Z.to_nat (tk_start t)) doc)).
