(** Model of src/block_mapper.rs: 16-bit block numbers <-> 64-bit block indices. *)
From Verif Require Import Base.

(** src/block_mapper.rs 7-11. *)
Record mapper := mkMap { m_cur : N; m_next : N }.

(** src/block_mapper.rs 14-19 BlockMapper::new. *)
Definition mapper_new : mapper := mkMap 1 1.

(** src/block_mapper.rs 21-40 BlockMapper::index; [block] is a u16.  u64 overflow of the
    set counters (2^48 blocks) is not modelled. *)
Definition map_index (m : mapper) (block : N) : N * mapper :=
  let m1 := if (m_cur m =? m_next m) && (65535 - 10000 <? block)
            then mkMap (m_cur m) (m_next m + 1) else m in
  if negb (m_cur m1 =? m_next m1) && (block <? 10000) then
    let nb := m_next m1 - 1 in
    (nb * 65535 + block + nb, m1)
  else
    let m2 := if negb (m_cur m1 =? m_next m1) && ((10000 <=? block) && (block <? 20000))
              then mkMap (m_cur m1 + 1) (m_next m1) else m1 in
    let cb := m_cur m2 - 1 in
    let index := cb * 65535 + block in
    (if 0 <? cb then index + cb else index, m2).

(** src/block_mapper.rs 63-69 BlockMapper::block. *)
Definition map_block (index : N) : N :=
  if 65535 <? index then
    let part := index / (65535 + 1) in
    (index - part * (65535 + 1)) mod 65536
  else index mod 65536.
