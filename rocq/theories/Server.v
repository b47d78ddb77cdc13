(** * Model of the web server: wasm_demo/webserver.rb

    The script gives WEBrick a directory and a table of types.  Of WEBrick, the file handler is modelled for requests
    of the files of that directory, without conditions or ranges; names are as in the URL, without the slash,
    and have no line feeds.  WEBrick is not in the repository: its part is written from its documented behaviour. *)
From Verif Require Import Prim Webasm WebasmBin Page.

Definition name := list N.
Definition same_name : name -> name -> bool := fix eqb a b :=
  match a, b with [], [] => true | x :: a', y :: b' => (x =? y) && eqb a' b' | _, _ => false end.

(** A Ruby hash of types by suffix; the first entry of a key counts *)
Definition types := list (name * name).
Fixpoint type_of (t : types) (k : name) : option name :=
  match t with [] => None | (k', v) :: t' => if same_name k' k then Some v else type_of t' k end.
(** Hash#merge with one entry *)
Definition merge (t : types) (k v : name) : types := (k, v) :: t.

Definition wasm : name := [119; 97; 115; 109].
Definition application_wasm : name := [97; 112; 112; 108; 105; 99; 97; 116; 105; 111; 110; 47; 119; 97; 115; 109].
Definition octet_stream : name :=
  [97; 112; 112; 108; 105; 99; 97; 116; 105; 111; 110; 47; 111; 99; 116; 101; 116; 45; 115; 116; 114; 101; 97; 109].
Definition text_html : name := [116; 101; 120; 116; 47; 104; 116; 109; 108].

(** webserver.rb:11: the table of the server, from WEBrick's *)
Definition server_types (defaults : types) : types := merge defaults wasm application_wasm.

(** WEBrick::HTTPUtils.mime_type, used by the file handler of webserver.rb:18: the last suffix, in lower case, else the one before *)
Definition word_char (c : N) : bool :=
  (48 <=? c) && (c <=? 57) || (65 <=? c) && (c <=? 90) || (c =? 95) || (97 <=? c) && (c <=? 122).
Definition downcase (c : N) : N := if (65 <=? c) && (c <=? 90) then c + 32 else c.
(** What is before and after the last dot *)
Fixpoint at_last_dot (s : name) : option (name * name) :=
  match s with
  | [] => None
  | c :: t =>
      match at_last_dot t with
      | Some (a, b) => Some (c :: a, b)
      | None => if c =? 46 then Some ([], t) else None
      end
  end.
Definition filled (s : name) : bool := match s with [] => false | _ => true end.
(** /\.(\w+)$/ *)
Definition suffix1 (f : name) : option name :=
  match at_last_dot f with
  | Some (_, e) => if filled e && forallb word_char e then Some (map downcase e) else None
  | None => None
  end.
(** /\.(\w+)\.[\w\-]+$/ *)
Definition suffix2 (f : name) : option name :=
  match at_last_dot f with
  | Some (a, e) => if filled e && forallb (fun c => word_char c || (c =? 45)) e then suffix1 a else None
  | None => None
  end.
Definition mime_type (f : name) (t : types) : name :=
  match match suffix1 f with Some k => type_of t k | None => None end with
  | Some v => v
  | None => match match suffix2 f with Some k => type_of t k | None => None end with
            | Some v => v
            | None => octet_stream
            end
  end.

(** Names that the file handler does not disclose: .ht* and *~ *)
Definition hidden (f : name) : bool :=
  match f with 46 :: 104 :: 116 :: _ => true | _ => false end || (last f 0 =? 126).

(** webserver.rb:10-11, 18: the answer to a GET: status, type and body; the page about an error is any *)
Definition serve (t : types) (files : name -> option (list N)) (error : list N) (f : name) : N * name * list N :=
  match files f with
  | Some body => if hidden f then (404, text_html, error) else (200, mime_type f t, body)
  | None => (404, text_html, error)
  end.

(** What wasm.js:17 or 22 gets of an answer *)
Definition fetched (answer : N * name * list N) : option (bool * list N) :=
  let '(status, type, body) := answer in Some ((200 <=? status) && (status <=? 299) && same_name type application_wasm, body).

(** wasm.js:5 *)
Definition demo_wasm : name := [100; 101; 109; 111; 46; 119; 97; 115; 109].
Definition visit (streaming : bool) (t : types) (files : name -> option (list N)) (error : list N) (engine : list N -> option wmodule) : browser :=
  Browser streaming (fetched (serve t files error demo_wasm)) engine.
