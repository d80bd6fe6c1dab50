(** * HashProxy: bff-modp/src/hash_proxy.rs. *)
From Verif Require Export Base Xor.
Local Open Scope Z_scope.

(** hash_proxy.rs:84-102: the item type [T] and the hasher [H] only matter through
    [hash::<T, H>], which feeds an item to a fresh default hasher; here it is the
    parameter [hash] (deterministic, as [Hasher + Default] is used). [F] is the wrapped
    filter type. The struct only stores the filter. *)
Section Proxy.
Variables (T F : Type) (hash : T -> Z).

(** hash_proxy.rs:111-113 [contains]. *)
Definition proxy_contains (contains : F -> Z -> res bool) (f : F) (item : T) : res bool :=
  contains f (hash item).

(** hash_proxy.rs:120-134 [From<&[T]>]. *)
Definition proxy_from (from : list Z -> res F) (items : list T) : res F :=
  from (map hash items).
End Proxy.
Arguments proxy_contains {T F}.
Arguments proxy_from {T F}.

(** The only filters of the crate with [From<Vec<u64>>] are Xor8/16/32
    (xor8.rs:83-87 and the same in xor16.rs, xor32.rs). *)
Definition xor_proxy_from {T} (hash : T -> Z) (tries w : nat) (dbg : bool) (items : list T)
  : res xorf := proxy_from hash (xor_from tries w dbg) items.
Definition xor_proxy_contains {T} (hash : T -> Z) (w : nat) (dbg : bool) (f : xorf) (item : T)
  : res bool := proxy_contains hash (xor_contains w dbg) f item.
