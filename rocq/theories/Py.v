(** Shared vocabulary of the model: Python exceptions as values, Python list,
    dictionary and string operations.  No property is stated here. *)
From Coq Require Export String Ascii Arith ZArith QArith Qround Qabs Bool Lia Lqa List.
Export ListNotations.
#[global] Open Scope list_scope.

(** ** Exceptions as values *)
Inductive exn : Type :=
| ValueError | TypeError | KeyError | IndexError | RuntimeError | AssertionError
| LookupError | FileNotFoundError | AttributeError | UnboundLocalError
| NotImplementedError | ZeroDivisionError | OtherError (name : string).

Inductive result (A : Type) : Type :=
| Ok (a : A)
| Err (e : exn).
Arguments Ok {A} a.
Arguments Err {A} e.

Definition bind {A B} (r : result A) (f : A -> result B) : result B :=
  match r with Ok a => f a | Err e => Err e end.

Definition is_ok {A} (r : result A) : bool :=
  match r with Ok _ => true | Err _ => false end.

Declare Scope py_scope.
Notation "'let!' x ':=' r 'in' k" := (bind r (fun x => k))
  (at level 200, x pattern, r at level 100, k at level 200, right associativity) : py_scope.
#[global] Open Scope py_scope.

(** [for x in l: ys.append(f(x))], stopping at the first exception. *)
Fixpoint mapM {A B} (f : A -> result B) (l : list A) : result (list B) :=
  match l with
  | [] => Ok []
  | x :: xs => let! y := f x in let! ys := mapM f xs in Ok (y :: ys)
  end.

(** ** Numbers: floating point values are exact rationals, NaN is [None]. *)
Definition num : Type := option Q.

Definition Qlt_bool (a b : Q) : bool := negb (Qle_bool b a).

(** ** Lists *)
(** [l[i]] with Python's negative indices; [None] stands for IndexError. *)
Definition py_nth {A} (l : list A) (i : Z) : option A :=
  if (0 <=? i)%Z then nth_error l (Z.to_nat i)
  else if (0 <=? Z.of_nat (length l) + i)%Z
       then nth_error l (Z.to_nat (Z.of_nat (length l) + i))
       else None.

Fixpoint last_error {A} (l : list A) : option A :=
  match l with
  | [] => None
  | [x] => Some x
  | _ :: xs => last_error xs
  end.

(** ** Dictionaries: association lists in insertion order. *)
Section Dict.
  Context {K V : Type} (eqb : K -> K -> bool).
  Fixpoint d_get (d : list (K * V)) (k : K) : option V :=
    match d with
    | [] => None
    | (k', v) :: r => if eqb k k' then Some v else d_get r k
    end.
  Definition d_mem (d : list (K * V)) (k : K) : bool :=
    match d_get d k with Some _ => true | None => false end.
  (** [d[k] = v]: an existing key keeps its position, a new key goes last. *)
  Fixpoint d_set (d : list (K * V)) (k : K) (v : V) : list (K * V) :=
    match d with
    | [] => [(k, v)]
    | (k', v') :: r => if eqb k k' then (k', v) :: r else (k', v') :: d_set r k v
    end.
  Fixpoint d_del (d : list (K * V)) (k : K) : list (K * V) :=
    match d with
    | [] => []
    | (k', v') :: r => if eqb k k' then r else (k', v') :: d_del r k
    end.
End Dict.

Definition sget {V} := @d_get string V String.eqb.
Definition sset {V} := @d_set string V String.eqb.
Definition smem {V} := @d_mem string V String.eqb.
Definition sdel {V} := @d_del string V String.eqb.

(** ** Strings *)
Definition str_in (x : string) (l : list string) : bool := existsb (String.eqb x) l.

(** [p in s] *)
Fixpoint contains (p s : string) : bool :=
  prefix p s || match s with EmptyString => false | String _ s' => contains p s' end.

(** [s.lower()] on ASCII. *)
Definition lower_ascii (c : ascii) : ascii :=
  let n := nat_of_ascii c in
  if (Nat.leb 65 n && Nat.leb n 90)%bool then ascii_of_nat (n + 32) else c.
Fixpoint lower (s : string) : string :=
  match s with
  | EmptyString => EmptyString
  | String c s' => String (lower_ascii c) (lower s')
  end.

(** [sep.join(l)] *)
Fixpoint join (sep : string) (l : list string) : string :=
  match l with
  | [] => ""%string
  | [x] => x
  | x :: xs => (x ++ sep ++ join sep xs)%string
  end.

(** [s.split(sep)] for a non-empty [sep].  [skip] counts the characters of a
    separator occurrence still to be dropped, [acc] is the current piece
    reversed. *)
Fixpoint rev_string (s : string) (acc : string) : string :=
  match s with
  | EmptyString => acc
  | String c s' => rev_string s' (String c acc)
  end.
Fixpoint split_aux (sep s : string) (skip : nat) (acc : string) : list string :=
  match s with
  | EmptyString => [rev_string acc ""]
  | String c s' =>
      match skip with
      | S k => split_aux sep s' k acc
      | O => if prefix sep s
             then rev_string acc "" :: split_aux sep s' (String.length sep - 1) ""
             else split_aux sep s' 0 (String c acc)
      end
  end.
Definition str_split (sep s : string) : list string := split_aux sep s 0 "".
