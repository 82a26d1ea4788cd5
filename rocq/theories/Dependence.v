(** What the text of a converted file may depend on (specification). *)
From Verif Require Import PyStr PyDict Ast BasicPass Converter Shipped.

(** Two states of the converter that are the same for the files to come: the numbers of
    temporaries, the names of the C++ extensions and the classes that use them agree.
    Counts, tables of APIs, imports of other files and requested helper code may differ. *)
Definition same_future (c c' : conv world) : Prop :=
  name_counters (c_shared c) = name_counters (c_shared c') /\
  Shipped.cpp_extensions (c_shared c) = Shipped.cpp_extensions (c_shared c') /\
  c_autograd c = c_autograd c'.
