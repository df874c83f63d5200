(** Model of fast_pimpl.h, function by function, over byte-addressed storage.

    A fast_pimpl object at place [p] is Size bytes of storage and nothing else; the
    only thing it does with them is to run T's special members on the T that lives
    there.  Memory is a map from places to the T that lives at that address, if
    any; a T is constructed by placement new, and destroyed by an explicit call of
    its destructor.  Constructing over a living T and using a dead one is undefined.
    fast_pimpl objects themselves are tracked separately from the T objects.
    An exception that leaves a function with a noexcept specification that says true
    ends the program: Abort.  Simplification: T has neither an overloaded operator&
    nor an operator new of its own. *)

Require Import List Bool.
Require Import Verif.Outcome Verif.PimplSpec.
Import ListNotations.
Open Scope res_scope.

Section Pimpl.
  Variable T : cls.
  Let V := value T.

  (** which places hold a fast_pimpl, and which hold a T *)
  Record pmem := Pmem { pimpls : nat -> bool; cells : world V }.

  (** fast_pimpl.h:99 get: reinterpret_cast of this, the address itself *)
  Definition get (p : nat) : nat := p.

  (** ** The traits used in the noexcept specifications (the standard library's, not
      the header's): is_nothrow_constructible_v<T, ...> is about the declaration of a
      variable, so the destructor counts; is_nothrow_copy_assignable_v<T> and
      is_nothrow_move_assignable_v<T> are about the assignment alone *)
  Definition is_nothrow_constructible (ctor : bool) : bool := ctor && n_dtor T.
  Definition is_nothrow_copy_assignable : bool := n_assign T.
  Definition is_nothrow_move_assignable : bool := n_take T.

  (** what a call does to the T's, what is seen, and whether it returned normally *)
  Definition effect := (world V * list (pevent V) * bool)%type.

  (** the end of a call of a member of T that is noexcept or not *)
  Definition leaving (nothrow : bool) (normal threw : effect) (throws : bool) : res effect :=
    if throws then if nothrow then Abort else Ok threw else Ok normal.

  (** a placement new expression whose T has value [v] unless its constructor throws;
      [w'] are the T's after the constructor but for the new one *)
  Definition placement_new (w w' : world V) (a : nat) (v : V) (nothrow throws : bool) : res effect :=
    match w a with
    | Some _ => UB
    | None => leaving nothrow (set_at w' a (Some v), [EBegin a v], true) (w', [EThrow], false) throws
    end.
  Definition read (w : world V) (a : nat) : res V := match w a with Some v => Ok v | None => UB end.
  (** an argument of type T: an object of the caller's, or the T at an address *)
  Definition read_arg (w : world V) (t : operand V) : res V := match t with Own v => Ok v | Inside s => read w s end.

  (** the noexcept specification of a function of fast_pimpl *)
  Definition specified (noexc : bool) (body : res effect) : res effect :=
    ' (w, es, fine) <- body;;
    if negb fine && noexc then Abort else Ok (w, es, fine).

  (** the frame of every constructor: a fast_pimpl comes to life in an empty place if
      the body does not throw (fast_pimpl.h:104 zeroes data_ first) *)
  Definition constructing (m : pmem) (d : nat) (noexc : bool) (body : world V -> res effect) : res (pmem * list (pevent V)) :=
    if pimpls m d then UB
    else
      ' (w, es, fine) <- specified noexc (body (cells m));;
      Ok (Pmem (fun u => if Nat.eqb u d then fine else pimpls m u) w, es).
  (** the frame of every member function *)
  Definition member {A : Type} (m : pmem) (d : nat) (body : res A) : res A := if pimpls m d then body else UB.
  Definition assigning (m : pmem) (d : nat) (noexc : bool) (body : world V -> res effect) : res (pmem * list (pevent V)) :=
    member m d (
      ' (w, es, _) <- specified noexc (body (cells m));;
      Ok (Pmem (pimpls m) w, es)).
  (** aOther.get() for another fast_pimpl, and T&, T&& arguments that refer to the T
      inside one (x.get()) *)
  Definition other (m : pmem) (s : nat) (body : operand V -> res (pmem * list (pevent V))) : res (pmem * list (pevent V)) :=
    member m s (body (Inside (get s))).
  Definition argument (m : pmem) (t : operand V) (body : operand V -> res (pmem * list (pevent V))) : res (pmem * list (pevent V)) :=
    match t with Own _ => body t | Inside s => other m s body end.

  (** new (p) T(t), new (p) T(std::move(t)) *)
  Definition new_copy (w : world V) (a : nat) (t : operand V) (thr : bool) : res effect :=
    v <- read_arg w t;; placement_new w w a (v_copy T v) (n_copy T) thr.
  Definition new_move (w : world V) (a : nat) (t : operand V) (thr : bool) : res effect :=
    v <- read_arg w t;;
    placement_new w (match t with Own _ => w | Inside s => set_at w s (Some (snd (v_move T thr v))) end) a
                  (fst (v_move T thr v)) (n_move T) thr.
  (** x = t, x = std::move(t) for the T's x and t *)
  Definition assign_copy (w : world V) (a : nat) (t : operand V) (thr : bool) : res effect :=
    x <- read w a;;
    y <- read_arg w t;;
    let self := match t with Own _ => false | Inside s => Nat.eqb a s end in
    let w' := set_at w a (Some (if self then v_self_assign T thr x else v_assign T thr x y)) in
    leaving (n_assign T) (w', [], true) (w', [EThrow], false) thr.
  Definition assign_move (w : world V) (a : nat) (t : operand V) (thr : bool) : res effect :=
    x <- read w a;;
    y <- read_arg w t;;
    let p := v_take T thr x y in
    let w' := match t with
              | Own _ => set_at w a (Some (fst p))
              | Inside s => if Nat.eqb a s then set_at w a (Some (v_self_take T thr x))
                            else set_at (set_at w s (Some (snd p))) a (Some (fst p))
              end in
    leaving (n_take T) (w', [], true) (w', [EThrow], false) thr.

  (** fast_pimpl.h:23-26 default constructor *)
  Definition pimpl_default (m : pmem) (d : nat) (thr : bool) : res (pmem * list (pevent V)) :=
    constructing m d (is_nothrow_constructible (n_default T))
      (fun w => placement_new w w (get d) (v_default T) (n_default T) thr).
  (** fast_pimpl.h:28-33 forwarding constructor *)
  Definition pimpl_forward (m : pmem) (d : nat) (v : V) (nx thr : bool) : res (pmem * list (pevent V)) :=
    constructing m d (is_nothrow_constructible nx) (fun w => placement_new w w (get d) v nx thr).
  (** fast_pimpl.h:35-39 copy constructor *)
  Definition pimpl_copy (m : pmem) (d s : nat) (thr : bool) : res (pmem * list (pevent V)) :=
    other m s (fun t => constructing m d (is_nothrow_constructible (n_copy T)) (fun w => new_copy w (get d) t thr)).
  (** fast_pimpl.h:41-45 constructor from const T& *)
  Definition pimpl_from (m : pmem) (d : nat) (t : operand V) (thr : bool) : res (pmem * list (pevent V)) :=
    argument m t (fun t => constructing m d (is_nothrow_constructible (n_copy T)) (fun w => new_copy w (get d) t thr)).
  (** fast_pimpl.h:47-51 move constructor *)
  Definition pimpl_move (m : pmem) (d s : nat) (thr : bool) : res (pmem * list (pevent V)) :=
    other m s (fun t => constructing m d (is_nothrow_constructible (n_move T)) (fun w => new_move w (get d) t thr)).
  (** fast_pimpl.h:53-56 constructor from T&& *)
  Definition pimpl_take (m : pmem) (d : nat) (t : operand V) (thr : bool) : res (pmem * list (pevent V)) :=
    argument m t (fun t => constructing m d (is_nothrow_constructible (n_move T)) (fun w => new_move w (get d) t thr)).

  (** fast_pimpl.h:58-63 copy assignment *)
  Definition pimpl_assign (m : pmem) (d s : nat) (thr : bool) : res (pmem * list (pevent V)) :=
    other m s (fun t => assigning m d is_nothrow_copy_assignable (fun w => assign_copy w (get d) t thr)).
  (** fast_pimpl.h:65-70 assignment from const T& *)
  Definition pimpl_set (m : pmem) (d : nat) (t : operand V) (thr : bool) : res (pmem * list (pevent V)) :=
    argument m t (fun t => assigning m d is_nothrow_copy_assignable (fun w => assign_copy w (get d) t thr)).
  (** fast_pimpl.h:72-77 move assignment *)
  Definition pimpl_move_assign (m : pmem) (d s : nat) (thr : bool) : res (pmem * list (pevent V)) :=
    other m s (fun t => assigning m d is_nothrow_move_assignable (fun w => assign_move w (get d) t thr)).
  (** fast_pimpl.h:79-84 assignment from T&& *)
  Definition pimpl_move_set (m : pmem) (d : nat) (t : operand V) (thr : bool) : res (pmem * list (pevent V)) :=
    argument m t (fun t => assigning m d is_nothrow_move_assignable (fun w => assign_move w (get d) t thr)).
  (** fast_pimpl.h:86-88, 99-101 operator->, get *)
  Definition pimpl_read (m : pmem) (s : nat) : res (pmem * list (pevent V)) :=
    member m s (v <- read (cells m) (get s);; Ok (m, [ERead s v])).
  (** fast_pimpl.h:17-21 destructor.  It has no noexcept specification of its own and so
      that of the destructor the compiler would write, which destroys bytes: true *)
  Definition pimpl_destroy (m : pmem) (s : nat) (thr : bool) : res (pmem * list (pevent V)) :=
    member m s (
      v <- read (cells m) (get s);;
      let w := set_at (cells m) (get s) None in
      ' (w', es, _) <- specified true (leaving (n_dtor T) (w, [EEnd s v], true) (w, [EEnd s v; EThrow], false) thr);;
      Ok (Pmem (fun u => if Nat.eqb u s then false else pimpls m u) w', es)).

  (** one act of a program on fast_pimpl objects (fast_pimpl.h:17-97) *)
  Definition pimpl_step (m : pmem) (o : pop V) : res (pmem * list (pevent V)) :=
    match o with
    | PDefault d thr => pimpl_default m d thr
    | PForward d v nx thr => pimpl_forward m d v nx thr
    | PCopy d s thr => pimpl_copy m d s thr
    | PMove d s thr => pimpl_move m d s thr
    | PFrom d t thr => pimpl_from m d t thr
    | PTake d t thr => pimpl_take m d t thr
    | PAssign d s thr => pimpl_assign m d s thr
    | PMoveAssign d s thr => pimpl_move_assign m d s thr
    | PSet d t thr => pimpl_set m d t thr
    | PMoveSet d t thr => pimpl_move_set m d t thr
    | PRead s => pimpl_read m s
    | PDestroy s thr => pimpl_destroy m s thr
    end.
  (** a sequence of such acts (no code of its own) *)
  Fixpoint pimpl_run (m : pmem) (ops : list (pop V)) : res (pmem * list (pevent V)) :=
    match ops with
    | [] => Ok (m, [])
    | o :: ops' =>
      ' (m1, a) <- pimpl_step m o;;
      ' (m2, b) <- pimpl_run m1 ops';;
      Ok (m2, a ++ b)
    end.
  (** no code: no object exists *)
  Definition no_pimpls : pmem := Pmem (fun _ => false) (fun _ => None).

  (** ** What std::is_nothrow_constructible_v<fast_pimpl<T, ...>, ...> and the like say:
      the noexcept specification of the function called, and for constructors that of the
      destructor of fast_pimpl, which is true *)
  Definition pimpl_destructor_noexcept : bool := true.
  Definition pimpl_nothrow (q : question) : bool :=
    match q with
    | QDefault => is_nothrow_constructible (n_default T) && pimpl_destructor_noexcept
    | QForward nx => is_nothrow_constructible nx && pimpl_destructor_noexcept
    | QCopy | QFrom => is_nothrow_constructible (n_copy T) && pimpl_destructor_noexcept
    | QMove | QTake => is_nothrow_constructible (n_move T) && pimpl_destructor_noexcept
    | QAssign | QSet => is_nothrow_copy_assignable
    | QMoveAssign | QMoveSet => is_nothrow_move_assignable
    end.
End Pimpl.
Arguments pimpls {T} p.
Arguments cells {T} p.

(** fast_pimpl.h:90-97 validate, instantiated by the destructor (19): the program
    compiles iff the template arguments are sizeof(T) and alignof(T) *)
Definition pimpl_compiles (size align actual_size actual_align : nat) : bool :=
  Nat.eqb size actual_size && Nat.eqb align actual_align.
