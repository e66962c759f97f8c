(** jinja2 (3.1, setup.py:33), as far as the templates use it, with the
    settings of messaging.py:219-224: nothing is escaped, the line feed after a
    block is dropped (trim_blocks) and so is the white space before a block
    that begins a line (lstrip_blocks).

    Not modelled, and not in the templates: comments, {% set %}, macros,
    inheritance, inline conditions, arithmetic, indices, white space control by
    a minus sign, a tag that contains its own end in a text.  *)
From Coq Require Import ZArith String Ascii List Bool.
From Verif.Base Require Import Result Dict PyStr.
From Verif.Model Require Import Duration DateTime Text Normalize Xml Templates.
Import ListNotations.
Local Open Scope string_scope.

(** ** Syntax *)
Inductive expr :=
| EName (x : string)
| EAttr (e : expr) (a : string)
| EStr (s : string)
| EInt (z : Z)
| EFilter (e : expr) (f : string)
| EDefined (e : expr)
| EIsNone (e : expr)
| EStartswith (e : expr) (s : expr)
| EGreater (a b : expr)
| ENot (e : expr)
| EAnd (a b : expr)
| EOr (a b : expr).

Inductive tnode :=
| TData (s : string)
| TOut (e : expr)
| TIf (c : expr) (a b : list tnode)
| TFor (x : string) (e : expr) (body : list tnode)
| TInclude (body : option (list tnode)).   (* [None]: there is no such template *)

(** ** From text to pieces (jinja2/lexer.py, Lexer.tokeniter) *)
Inductive piece := Data (s : string) | Variable_ (s : string) | Block (s : string).

(** The text before and after the first [{{] or [{%]; is it a block? *)
Fixpoint find_tag (s : string) : option (string * bool * string) :=
  match s with
  | EmptyString => None
  | String c r =>
    match strip_prefix "{{" s, strip_prefix "{%" s with
    | Some t, _ => Some (EmptyString, false, t)
    | _, Some t => Some (EmptyString, true, t)
    | None, None => match find_tag r with Some (a, b, t) => Some (String c a, b, t) | None => None end
    end
  end.
Fixpoint cut (mark s : string) : option (string * string) :=
  match strip_prefix mark s with
  | Some r => Some (EmptyString, r)
  | None => match s with EmptyString => None | String c r => match cut mark r with Some (a, b) => Some (String c a, b) | None => None end end
  end.
Fixpoint blank_line (s : string) : bool :=
  match s with EmptyString => true | String c r => is_space c && negb (Ascii.eqb c newline) && blank_line r end.
(** lstrip_blocks: white space only between the begin of the line and the
    block.  [starts]: this is the begin of a line. *)
Fixpoint drop_indent (starts : bool) (s : string) : string :=
  match s with
  | EmptyString => EmptyString
  | String c r => if starts && blank_line s then EmptyString else String c (drop_indent (Ascii.eqb c newline) r)
  end.
(** trim_blocks *)
Definition trim_newline (s : string) : string * bool :=
  match s with String c r => if Ascii.eqb c newline then (r, true) else (s, false) | EmptyString => (s, false) end.
(** keep_trailing_newline is off. *)
Fixpoint drop_last_newline (s : string) : string :=
  match s with
  | EmptyString => EmptyString
  | String c EmptyString => if Ascii.eqb c newline then EmptyString else s
  | String c r => String c (drop_last_newline r)
  end.
Fixpoint pieces (fuel : nat) (starts : bool) (s : string) : option (list piece) :=
  match fuel with
  | O => None
  | S fuel =>
    match find_tag s with
    | None => Some [Data s]
    | Some (a, true, r) =>
      match cut "%}" r with
      | Some (tag, r) =>
        let '(r, starts') := trim_newline r in
        option_map (fun l => Data (drop_indent starts a) :: Block tag :: l) (pieces fuel starts' r)
      | None => None
      end
    | Some (a, false, r) =>
      match cut "}}" r with
      | Some (tag, r) => option_map (fun l => Data a :: Variable_ tag :: l) (pieces fuel false r)
      | None => None
      end
    end
  end.

(** ** Inside a tag: words *)
Inductive word := WName (s : string) | WInt (z : Z) | WStr (s : string) | WSign (c : ascii).
Definition is_word_char (c : ascii) : bool :=
  let n := N_of_ascii c in ((48 <=? n) && (n <=? 57) || (65 <=? n) && (n <=? 90) || (97 <=? n) && (n <=? 122) || (n =? 95))%N.
Fixpoint span_word (s : string) : string * string :=
  match s with
  | EmptyString => (EmptyString, EmptyString)
  | String c r => if is_word_char c then let '(a, b) := span_word r in (String c a, b) else (EmptyString, s)
  end.
Fixpoint words (fuel : nat) (s : string) : option (list word) :=
  match fuel, s with
  | O, _ => None
  | _, EmptyString => Some []
  | S fuel, String c r =>
    if is_space c then words fuel r
    else if is_digit c then let '(a, b) := span_digits s in option_map (cons (WInt (int_of a))) (words fuel b)
    else if is_word_char c then let '(a, b) := span_word s in option_map (cons (WName a)) (words fuel b)
    else if Ascii.eqb c "'" then match cut "'" r with Some (a, b) => option_map (cons (WStr a)) (words fuel b) | None => None end
    else option_map (cons (WSign c)) (words fuel r)
  end.

(** ** Expressions (jinja2/parser.py, parse_or down to parse_primary) *)
(** parse_postfix and parse_filter_expr: attributes, calls, filters and tests. *)
Fixpoint postfix (fuel : nat) (e : expr) (ws : list word) : option (expr * list word) :=
  match fuel with
  | O => None
  | S fuel =>
    match ws with
    | WSign "." :: WName "startswith" :: WSign "(" :: WStr s :: WSign ")" :: ws => postfix fuel (EStartswith e (EStr s)) ws
    | WSign "." :: WName a :: ws => postfix fuel (EAttr e a) ws
    | WSign "|" :: WName f :: ws => postfix fuel (EFilter e f) ws
    | WName "is" :: WName "not" :: WName "defined" :: ws => postfix fuel (ENot (EDefined e)) ws
    | WName "is" :: WName "not" :: WName "none" :: ws => postfix fuel (ENot (EIsNone e)) ws
    | WName "is" :: WName "defined" :: ws => postfix fuel (EDefined e) ws
    | WName "is" :: WName "none" :: ws => postfix fuel (EIsNone e) ws
    | _ => Some (e, ws)
    end
  end.
Fixpoint parse_or (fuel : nat) (ws : list word) : option (expr * list word) :=
  match fuel with
  | O => None
  | S fuel =>
    match parse_and fuel ws with
    | Some (a, WName "or" :: ws) => match parse_or fuel ws with Some (b, ws) => Some (EOr a b, ws) | None => None end
    | o => o
    end
  end
with parse_and (fuel : nat) (ws : list word) : option (expr * list word) :=
  match fuel with
  | O => None
  | S fuel =>
    match parse_not fuel ws with
    | Some (a, WName "and" :: ws) => match parse_and fuel ws with Some (b, ws) => Some (EAnd a b, ws) | None => None end
    | o => o
    end
  end
with parse_not (fuel : nat) (ws : list word) : option (expr * list word) :=
  match fuel with
  | O => None
  | S fuel =>
    match ws with
    | WName "not" :: ws => match parse_not fuel ws with Some (e, ws) => Some (ENot e, ws) | None => None end
    | _ => parse_compare fuel ws
    end
  end
with parse_compare (fuel : nat) (ws : list word) : option (expr * list word) :=
  match fuel with
  | O => None
  | S fuel =>
    match parse_primary fuel ws with
    | Some (a, WSign ">" :: ws) => match parse_primary fuel ws with Some (b, ws) => Some (EGreater a b, ws) | None => None end
    | o => o
    end
  end
with parse_primary (fuel : nat) (ws : list word) : option (expr * list word) :=
  match fuel with
  | O => None
  | S fuel =>
    match ws with
    | WName x :: ws => postfix fuel (EName x) ws
    | WStr s :: ws => postfix fuel (EStr s) ws
    | WInt z :: ws => postfix fuel (EInt z) ws
    | WSign "(" :: ws =>
      match parse_or fuel ws with
      | Some (e, WSign ")" :: ws) => postfix fuel e ws
      | _ => None
      end
    | _ => None
    end
  end.
(** A colon may follow (parser.py, parse_statements). *)
Definition parse_expr (fuel : nat) (ws : list word) : option expr :=
  match parse_or fuel ws with
  | Some (e, []) | Some (e, [WSign ":"]) => Some e
  | _ => None
  end.

(** ** Blocks (jinja2/parser.py, subparse, parse_if, parse_for, parse_include)

    [include] is how a template of some name is parsed.  What is returned: the
    nodes up to a closing block (its name, empty at the end) and the rest. *)
Fixpoint nodes (fuel : nat) (include : string -> option (option (list tnode))) (ps : list piece) : option (list tnode * string * list piece) :=
  match fuel with
  | O => None
  | S fuel =>
    let continue n ps := match nodes fuel include ps with Some (ns, close, ps) => Some (n :: ns, close, ps) | None => None end in
    match ps with
    | [] => Some ([], EmptyString, [])
    | Data s :: ps => continue (TData s) ps
    | Variable_ s :: ps =>
      match words fuel s with
      | Some ws => match parse_expr fuel ws with Some e => continue (TOut e) ps | None => None end
      | None => None
      end
    | Block s :: ps =>
      match words fuel s with
      | Some [WName "endif"] => Some ([], "endif", ps)
      | Some [WName "endfor"] => Some ([], "endfor", ps)
      | Some [WName "else"] => Some ([], "else", ps)
      | Some (WName "if" :: ws) =>
        match parse_expr fuel ws, nodes fuel include ps with
        | Some e, Some (a, "endif", ps) => continue (TIf e a []) ps
        | Some e, Some (a, "else", ps) =>
          match nodes fuel include ps with
          | Some (b, "endif", ps) => continue (TIf e a b) ps
          | _ => None
          end
        | _, _ => None
        end
      | Some (WName "for" :: WName x :: WName "in" :: ws) =>
        match parse_expr fuel ws, nodes fuel include ps with
        | Some e, Some (a, "endfor", ps) => continue (TFor x e a) ps
        | _, _ => None
        end
      | Some [WName "include"; WStr name] =>
        match include name with
        | Some b => continue (TInclude b) ps
        | None => None
        end
      | _ => None
      end
    end
  end.

Definition parse_template (fuel : nat) (include : string -> option (option (list tnode))) (text : string) : option (list tnode) :=
  match pieces fuel true (drop_last_newline text) with
  | Some ps => match nodes fuel include ps with Some (ns, EmptyString, []) => Some ns | _ => None end
  | None => None
  end.
(** Templates include others down to some depth.  jinja2 loads an included
    template when it is reached; here all of them are put in beforehand.  A
    template that does not exist is an error only when it is reached. *)
Fixpoint included (depth fuel : nat) (name : string) : option (option (list tnode)) :=
  match depth with
  | O => None
  | S depth =>
    match source name with
    | None => Some None
    | Some text => option_map Some (parse_template fuel (included depth fuel) text)
    end
  end.
(** messaging.py:70 get_template.  600 steps and five levels suffice for all
    templates (see C84). *)
Definition get_template (name : string) : option (list tnode) := match included 5 600 name with Some (Some t) => Some t | _ => None end.

(** ** Values

    A value or nothing: jinja2's Undefined.  Objects are the dict of their
    attributes.  None of the attributes that the templates name is an
    attribute or a method of a Python string, list, number, date or dict. *)
Definition jvalue := option val.

(** str(): of texts, numbers, booleans and None.  [other] is str() of all
    other values: dates and durations, lists and dicts. *)
Definition show (other : val -> string) (v : jvalue) : string :=
  match v with
  | None => ""
  | Some (VStr s) => s
  | Some (VInt z) => str_of_Z z
  | Some (VFloat t) => t
  | Some (VBool true) => "True"
  | Some (VBool false) => "False"
  | Some VNone => "None"
  | Some v => other v
  end.

Definition truth (v : jvalue) : bool :=
  match v with
  | None | Some VNone => false
  | Some (VBool b) => b
  | Some (VInt z) => negb (z =? 0)%Z
  | Some (VFloat t) => negb ((t =? "0.0") || (t =? "-0.0"))
  | Some (VStr s) => negb (s =? "")
  | Some (VTime _) => true
  | Some (VDur z) => negb (z =? 0)%Z
  | Some (VList l) => match l with [] => false | _ => true end
  | Some (VDict d) => match d with [] => false | _ => true end
  end.

(** ** Filters: messaging.py:220-222 and the built-in ones *)
(** utils.py:319-325 *)
Definition filter_datetime (v : jvalue) : result jvalue :=
  match v with
  | Some (VTime t) => bind (datetimeformat t) (fun s => Ok (Some (VStr s)))
  | v => Ok v
  end.
(** utils.py:328-348 *)
Definition filter_timedelta (v : jvalue) : jvalue :=
  match v with
  | Some (VDur d) => Some (VStr (timedeltaformat d))
  | v => v
  end.
(** utils.py:351-363 *)
Definition filter_boolean (v : jvalue) : result jvalue :=
  match v with
  | Some (VBool true) => Ok (Some (VStr "true"))
  | Some (VBool false) => Ok (Some (VStr "false"))
  | Some (VStr "true") | Some (VStr "false") => Ok v
  | _ => Raise ValueError
  end.
Definition filter_length (v : jvalue) : result jvalue :=
  match v with
  | None => Ok (Some (VInt 0))
  | Some (VStr s) => Ok (Some (VInt (Z.of_nat (String.length s))))
  | Some (VList l) => Ok (Some (VInt (Z.of_nat (length l))))
  | Some (VDict d) => Ok (Some (VInt (Z.of_nat (length d))))
  | Some _ => Raise TypeError
  end.
Definition apply_filter (other : val -> string) (f : string) (v : jvalue) : result jvalue :=
  match f with
  | "datetimeformat" => filter_datetime v
  | "timedeltaformat" => Ok (filter_timedelta v)
  | "booleanformat" => filter_boolean v
  | "length" => filter_length v
  | "safe" => Ok (Some (VStr (show other v)))
  | _ => Raise AssertionError                        (* TemplateAssertionError *)
  end.

(** ** Evaluation *)
(** Environment.getattr: an attribute of Undefined is an error, a missing
    attribute is Undefined. *)
Definition attribute (v : jvalue) (a : string) : result jvalue :=
  match v with
  | None => Raise UndefinedError
  | Some (VDict d) => Ok (vget a d)
  | Some _ => Ok None
  end.
Definition starts_with (v s : jvalue) : result jvalue :=
  match v, s with
  | Some (VStr v), Some (VStr s) => Ok (Some (VBool (startswith s v)))
  | Some (VStr _), _ => Raise TypeError
  | _, _ => Raise UndefinedError
  end.
Definition greater (a b : jvalue) : result jvalue :=
  match a, b with
  | Some (VInt a), Some (VInt b) => Ok (Some (VBool (b <? a)%Z))
  | _, _ => Raise TypeError
  end.
Fixpoint eval (other : val -> string) (c : vdict) (e : expr) : result jvalue :=
  match e with
  | EName x => Ok (vget x c)
  | EAttr e a => bind (eval other c e) (fun v => attribute v a)
  | EStr s => Ok (Some (VStr s))
  | EInt z => Ok (Some (VInt z))
  | EFilter e f => bind (eval other c e) (apply_filter other f)
  | EDefined e => bind (eval other c e) (fun v => Ok (Some (VBool (match v with Some _ => true | None => false end))))
  | EIsNone e => bind (eval other c e) (fun v => Ok (Some (VBool (match v with Some VNone => true | _ => false end))))
  | EStartswith e s => bind (eval other c e) (fun v => bind (eval other c s) (starts_with v))
  | EGreater a b => bind (eval other c a) (fun v => bind (eval other c b) (greater v))
  | ENot e => bind (eval other c e) (fun v => Ok (Some (VBool (negb (truth v)))))
  | EAnd a b => bind (eval other c a) (fun v => if truth v then eval other c b else Ok v)
  | EOr a b => bind (eval other c a) (fun v => if truth v then Ok v else eval other c b)
  end.

(** What a loop runs over: nothing for Undefined, the characters of a text,
    the keys of a dict. *)
Definition iterate (v : jvalue) : result (list val) :=
  match v with
  | None => Ok []
  | Some (VList l) => Ok l
  | Some (VStr s) => Ok (map (fun c => VStr (String c EmptyString)) (list_ascii_of_string s))
  | Some (VDict d) => Ok (map (fun p => VStr (fst p)) d)
  | Some _ => Raise TypeError
  end.
(** The names in the body of a loop.  Of [loop] only index0 is modelled. *)
Definition in_loop (c : vdict) (x : string) (i : nat) (v : val) : vdict :=
  (x, v) :: ("loop", VDict [("index0", VInt (Z.of_nat i))]) :: c.

(** ** Rendering *)
Definition joined {A} (f : A -> result string) : list A -> result string :=
  fix go l := match l with [] => Ok "" | a :: r => bind (f a) (fun s => bind (go r) (fun t => Ok (s ++ t))) end.
Definition counted {A} (f : nat -> A -> result string) : nat -> list A -> result string :=
  fix go i l := match l with [] => Ok "" | a :: r => bind (f i a) (fun s => bind (go (S i) r) (fun t => Ok (s ++ t))) end.
Fixpoint render (other : val -> string) (n : tnode) (c : vdict) : result string :=
  match n with
  | TData s => Ok s
  | TOut e => bind (eval other c e) (fun v => Ok (show other v))
  | TIf e a b => bind (eval other c e) (fun v => if truth v then joined (fun n => render other n c) a else joined (fun n => render other n c) b)
  | TFor x e body => bind (eval other c e) (fun v => bind (iterate v) (counted (fun i v => joined (fun n => render other n (in_loop c x i v)) body) 0))
  | TInclude (Some body) => joined (fun n => render other n c) body
  | TInclude None => Raise TemplateNotFound
  end.
Definition render_all (other : val -> string) (ns : list tnode) (c : vdict) : result string := joined (fun n => render other n c) ns.

(** ** messaging.py:65-88 create_message, after preflight_message

    [sign] is the signature (lines 73-82) of a flattened message, if it is to
    be signed; it is text. *)
Definition render_template (other : val -> string) (name : string) (c : vdict) : result string :=
  match get_template name with Some ns => render_all other ns c | None => Raise TemplateNotFound end.
Definition create_message (other : val -> string) (sign : string -> option string) (kind : string) (payload : vdict) : result string :=
  bind (render_template other (kind ++ ".xml") payload) (fun rendered =>
  let signed_object := flatten_xml rendered in
  let signature := match sign signed_object with Some s => VStr s | None => VNone end in
  render_template other "oadrPayload.xml" [("template", VStr kind); ("signature", signature); ("signed_object", VStr signed_object)]).
