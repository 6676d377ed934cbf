(** The table of the processing elements of a Spin2 chip and the script that read it. *)
From Verif Require Import Model_Py Model_Version Model_Str.
Open Scope list_scope.
Open Scope Z_scope.

(** version/vec2mesh.txt:1-165, the whole file *)
Definition vec2mesh_txt : string := "# Copyright (c) 2024 TU Dresden
#
# Licensed under the Apache License, Version 2.0 (the ""License"");
# you may not use this file except in compliance with the License.
# You may obtain a copy of the License at
#
#     https://www.apache.org/licenses/LICENSE-2.0
#
# Unless required by applicable law or agreed to in writing, software
# distributed under the License is distributed on an ""AS IS"" BASIS,
# WITHOUT WARRANTIES OR CONDITIONS OF ANY KIND, either express or implied.
# See the License for the specific language governing permissions and
# limitations under the License.
core_id: 1 => QPE (7,6) PE 0
core_id: 2 => QPE (7,6) PE 1
core_id: 3 => QPE (7,6) PE 2
core_id: 4 => QPE (7,6) PE 3
core_id: 5 => QPE (7,5) PE 0
core_id: 6 => QPE (7,5) PE 1
core_id: 7 => QPE (7,5) PE 2
core_id: 8 => QPE (7,5) PE 3
core_id: 9 => QPE (6,6) PE 0
core_id: 10 => QPE (6,6) PE 1
core_id: 11 => QPE (6,6) PE 2
core_id: 12 => QPE (6,6) PE 3
core_id: 13 => QPE (6,5) PE 0
core_id: 14 => QPE (6,5) PE 1
core_id: 15 => QPE (6,5) PE 2
core_id: 16 => QPE (6,5) PE 3
core_id: 17 => QPE (6,4) PE 0
core_id: 18 => QPE (6,4) PE 1
core_id: 19 => QPE (6,4) PE 2
core_id: 20 => QPE (6,4) PE 3
core_id: 21 => QPE (5,4) PE 0
core_id: 22 => QPE (5,4) PE 1
core_id: 23 => QPE (5,4) PE 2
core_id: 24 => QPE (5,4) PE 3
core_id: 25 => QPE (5,6) PE 0
core_id: 26 => QPE (5,6) PE 1
core_id: 27 => QPE (5,6) PE 2
core_id: 28 => QPE (5,6) PE 3
core_id: 29 => QPE (3,6) PE 0
core_id: 30 => QPE (3,6) PE 1
core_id: 31 => QPE (3,6) PE 2
core_id: 32 => QPE (3,6) PE 3
core_id: 33 => QPE (4,6) PE 0
core_id: 34 => QPE (4,6) PE 1
core_id: 35 => QPE (4,6) PE 2
core_id: 36 => QPE (4,6) PE 3
core_id: 37 => QPE (5,5) PE 0
core_id: 38 => QPE (5,5) PE 1
core_id: 39 => QPE (5,5) PE 2
core_id: 40 => QPE (5,5) PE 3
core_id: 41 => QPE (3,5) PE 0
core_id: 42 => QPE (3,5) PE 1
core_id: 43 => QPE (3,5) PE 2
core_id: 44 => QPE (3,5) PE 3
core_id: 45 => QPE (4,5) PE 0
core_id: 46 => QPE (4,5) PE 1
core_id: 47 => QPE (4,5) PE 2
core_id: 48 => QPE (4,5) PE 3
core_id: 49 => QPE (1,6) PE 0
core_id: 50 => QPE (1,6) PE 1
core_id: 51 => QPE (1,6) PE 2
core_id: 52 => QPE (1,6) PE 3
core_id: 53 => QPE (2,6) PE 0
core_id: 54 => QPE (2,6) PE 1
core_id: 55 => QPE (2,6) PE 2
core_id: 56 => QPE (2,6) PE 3
core_id: 57 => QPE (1,5) PE 0
core_id: 58 => QPE (1,5) PE 1
core_id: 59 => QPE (1,5) PE 2
core_id: 60 => QPE (1,5) PE 3
core_id: 61 => QPE (2,5) PE 0
core_id: 62 => QPE (2,5) PE 1
core_id: 63 => QPE (2,5) PE 2
core_id: 64 => QPE (2,5) PE 3
core_id: 65 => QPE (1,4) PE 0
core_id: 66 => QPE (1,4) PE 1
core_id: 67 => QPE (1,4) PE 2
core_id: 68 => QPE (1,4) PE 3
core_id: 69 => QPE (2,4) PE 0
core_id: 70 => QPE (2,4) PE 1
core_id: 71 => QPE (2,4) PE 2
core_id: 72 => QPE (2,4) PE 3
core_id: 73 => QPE (3,4) PE 0
core_id: 74 => QPE (3,4) PE 1
core_id: 75 => QPE (3,4) PE 2
core_id: 76 => QPE (3,4) PE 3
core_id: 77 => QPE (1,1) PE 0
core_id: 78 => QPE (1,1) PE 1
core_id: 79 => QPE (1,1) PE 2
core_id: 80 => QPE (1,1) PE 3
core_id: 81 => QPE (2,1) PE 0
core_id: 82 => QPE (2,1) PE 1
core_id: 83 => QPE (2,1) PE 2
core_id: 84 => QPE (2,1) PE 3
core_id: 85 => QPE (1,2) PE 0
core_id: 86 => QPE (1,2) PE 1
core_id: 87 => QPE (1,2) PE 2
core_id: 88 => QPE (1,2) PE 3
core_id: 89 => QPE (2,2) PE 0
core_id: 90 => QPE (2,2) PE 1
core_id: 91 => QPE (2,2) PE 2
core_id: 92 => QPE (2,2) PE 3
core_id: 93 => QPE (1,3) PE 0
core_id: 94 => QPE (1,3) PE 1
core_id: 95 => QPE (1,3) PE 2
core_id: 96 => QPE (1,3) PE 3
core_id: 97 => QPE (2,3) PE 0
core_id: 98 => QPE (2,3) PE 1
core_id: 99 => QPE (2,3) PE 2
core_id: 100 => QPE (2,3) PE 3
core_id: 101 => QPE (3,3) PE 0
core_id: 102 => QPE (3,3) PE 1
core_id: 103 => QPE (3,3) PE 2
core_id: 104 => QPE (3,3) PE 3
core_id: 105 => QPE (5,1) PE 0
core_id: 106 => QPE (5,1) PE 1
core_id: 107 => QPE (5,1) PE 2
core_id: 108 => QPE (5,1) PE 3
core_id: 109 => QPE (3,1) PE 0
core_id: 110 => QPE (3,1) PE 1
core_id: 111 => QPE (3,1) PE 2
core_id: 112 => QPE (3,1) PE 3
core_id: 113 => QPE (4,1) PE 0
core_id: 114 => QPE (4,1) PE 1
core_id: 115 => QPE (4,1) PE 2
core_id: 116 => QPE (4,1) PE 3
core_id: 117 => QPE (5,2) PE 0
core_id: 118 => QPE (5,2) PE 1
core_id: 119 => QPE (5,2) PE 2
core_id: 120 => QPE (5,2) PE 3
core_id: 121 => QPE (3,2) PE 0
core_id: 122 => QPE (3,2) PE 1
core_id: 123 => QPE (3,2) PE 2
core_id: 124 => QPE (3,2) PE 3
core_id: 125 => QPE (4,2) PE 0
core_id: 126 => QPE (4,2) PE 1
core_id: 127 => QPE (4,2) PE 2
core_id: 128 => QPE (4,2) PE 3
core_id: 129 => QPE (7,1) PE 0
core_id: 130 => QPE (7,1) PE 1
core_id: 131 => QPE (7,1) PE 2
core_id: 132 => QPE (7,1) PE 3
core_id: 133 => QPE (6,1) PE 0
core_id: 134 => QPE (6,1) PE 1
core_id: 135 => QPE (6,1) PE 2
core_id: 136 => QPE (6,1) PE 3
core_id: 137 => QPE (7,2) PE 0
core_id: 138 => QPE (7,2) PE 1
core_id: 139 => QPE (7,2) PE 2
core_id: 140 => QPE (7,2) PE 3
core_id: 141 => QPE (6,2) PE 0
core_id: 142 => QPE (6,2) PE 1
core_id: 143 => QPE (6,2) PE 2
core_id: 144 => QPE (6,2) PE 3
core_id: 145 => QPE (6,3) PE 0
core_id: 146 => QPE (6,3) PE 1
core_id: 147 => QPE (6,3) PE 2
core_id: 148 => QPE (6,3) PE 3
core_id: 149 => QPE (5,3) PE 0
core_id: 150 => QPE (5,3) PE 1
core_id: 151 => QPE (5,3) PE 2
core_id: 152 => QPE (5,3) PE 3
".

(** Iterating over a text file: the lines, without their newlines (the script only
    uses the first character of a line and its words, so only a blank line could
    show the difference: see [mesh_line]). *)
Definition file_lines (s : string) : list string :=
  let l := split_on (chr 10) s in
  match rev l with
  | EmptyString :: r => rev r
  | _ => l
  end.

(** [s.split()]: the words between whitespace *)
Fixpoint words_from (word : string) (s : string) : list string :=
  let flush (rest : list string) := match word with EmptyString => rest | _ => word :: rest end in
  match s with
  | EmptyString => flush []
  | String c r =>
      if is_space c then flush (words_from EmptyString r)
      else words_from (word ++ String c EmptyString)%string r
  end.
Definition py_split (s : string) : list string := words_from EmptyString s.

(** [l[i]] and [s[i]] with [i >= 0] *)
Definition item (l : list string) (i : nat) : res string :=
  match nth_error l i with Some s => Ok s | None => Err IndexError end.
Definition char_at (s : string) (i : nat) : res string :=
  match String.get i s with Some c => Ok (String c EmptyString) | None => Err IndexError end.

(** version/vec2mesh_reader.py:24-31 the body of the loop.  A blank line is
    modelled as the empty string; the script raises IndexError for it too, by
    parts[1]. *)
Definition mesh_line (qpe : dict Z (Z * Z * Z)) (line : string) : res (dict Z (Z * Z * Z)) :=
  match line with
  | String "#" _ => Ok qpe
  | _ =>
      let parts := py_split line in
      bind (bind (item parts 1) py_int) (fun v =>
      bind (bind (bind (item parts 4) (fun s => char_at s 1)) py_int) (fun x =>
      bind (bind (bind (item parts 4) (fun s => char_at s 3)) py_int) (fun y =>
      bind (bind (item parts 6) py_int) (fun p =>
      Ok (dset Z.eqb qpe v (x, y, p))))))
  end.

(** version/vec2mesh_reader.py:21-32 the dict that the script prints *)
Definition read_mesh (text : string) : res (dict Z (Z * Z * Z)) :=
  fold_res mesh_line (file_lines text) [].
