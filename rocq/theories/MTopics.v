(** The topic helpers of /repo/mod.rs: a file of the repository that no `mod` declaration of the
    crate in /repo/src names, so the crate does not contain it; it is modelled here as a program
    of its own.  A `str` is the list of its bytes (valid UTF-8, which the theorems assume where it
    matters).  All the characters these functions look for are ASCII, and in valid UTF-8 an ASCII
    character occurs exactly where its byte does, so `contains` and `split` work on bytes
    (TTopics.C61_ascii_search proves this of the UTF-8 encoding in Spec). *)
From Verif Require Import Types MLib.

(** `str::contains(char)` for an ASCII character. *)
Definition contains (c : N) (s : bytes) : bool := existsb (N.eqb c) s.

(** `str::split('/')`: never empty; a separator always starts a new piece. *)
Fixpoint split_slash (s : bytes) : list bytes :=
  match s with
  | [] => [[]]
  | b :: s =>
      if b =? 47 then [] :: split_slash s
      else match split_slash s with
           | [] => [[b]]
           | l :: ls => (b :: l) :: ls
           end
  end.

(** `==` on `&str`. *)
Fixpoint str_eq (a b : bytes) : bool :=
  match a, b with
  | [], [] => true
  | x :: a, y :: b => (x =? y) && str_eq a b
  | _, _ => false
  end.

(** /repo/mod.rs:26-33 fn qos (the numbers of the enum are at 13-17). *)
Definition mod_qos (num : N) : option N :=
  match num with
  | 0 => Some 0
  | 1 => Some 1
  | 2 => Some 2
  | _ => None
  end.

(** /repo/mod.rs:36-38 fn has_wildcards. *)
Definition has_wildcards (s : bytes) : bool := contains 43 s || contains 35 s.

(** /repo/mod.rs:41-48 fn valid_topic. *)
Definition valid_topic (topic : bytes) : bool :=
  if contains 43 topic || contains 35 topic then false else true.

(** /repo/mod.rs:74-87, the loop over the remaining entries. *)
Fixpoint filter_entries (hirerarchy : list bytes) : bool :=
  match hirerarchy with
  | [] => true
  | entry :: rest =>
      if contains 35 entry then false
      else if (1 <? blen entry) && contains 43 entry then false
      else filter_entries rest
  end.

(** /repo/mod.rs:53-90 fn valid_filter.  `next().unwrap()` on an empty iterator would panic; the
    code says that `split` never gives one, and C61_filter_never_panics proves it. *)
Definition valid_filter (filter : bytes) : res bool :=
  match filter with
  | [] => Ok false
  | _ :: _ =>
      match rev (split_slash filter) with
      | [] => Panic
      | last :: hirerarchy =>
          if negb (blen last =? 1) && (contains 35 last || contains 43 last) then Ok false
          else Ok (filter_entries hirerarchy)
      end
  end.

(** `&topic[..1]` of a non-empty string: the slice panics unless byte 1 is a character boundary,
    that is, unless the string ends there or the byte there is not a continuation byte
    (`str::is_char_boundary`). *)
Definition first_byte_slice (topic : bytes) : res bytes :=
  match topic with
  | [] => Panic
  | a :: [] => Ok [a]
  | a :: b :: _ => if cont_byte b then Panic else Ok [a]
  end.

(** /repo/mod.rs:105-122 the loop over the filter's pieces, then 125-129. *)
Fixpoint matches_loop (filters topics : list bytes) : bool :=
  match filters with
  | [] => match topics with [] => true | _ :: _ => false end
  | f :: filters =>
      if str_eq f [35] then true
      else
        match topics with
        | [] => false
        | t :: topics =>
            if str_eq t [35] then false
            else if str_eq f [43] then matches_loop filters topics
            else if negb (str_eq f t) then false
            else matches_loop filters topics
        end
  end.

(** /repo/mod.rs:97-130 fn matches. *)
Definition matches (topic filter : bytes) : res bool :=
  let? dollar := match topic with
                 | [] => Ok false
                 | _ :: _ => let? s := first_byte_slice topic in Ok (contains 36 s)
                 end in
  if dollar then Ok false
  else Ok (matches_loop (split_slash filter) (split_slash topic)).
