(** * The text of the build files: internal/gen/makefile, internal/gen/catkin

    Gen.v records what the generator gives to each template; here is what the templates for
    the Makefile and CMakeLists.txt make of it, byte for byte. *)
From Verif Require Export Gen.

Definition newline : gostr := [byte 10].
Definition tab : gostr := [byte 9].

(** Templates range over the tests of a suite in increasing order of name. *)
Definition name_le (a b : gostr) : Prop := str_leb a b = true.
Global Instance name_le_dec : RelDecision name_le.
Proof. intros x y. unfold name_le. apply _. Defined.
Definition sorted_names (tests : gset gostr) : list gostr := merge_sort name_le (elements tests).

(** The templates "output", "reg_inputs", "iconvert" and "convert" (Makefile.tmpl:1-4). *)
Definition mk_output (k : gostr) : gostr := lit "bin/" ++ k.
Definition mk_inputs (k : gostr) : gostr := lit "src/" ++ k ++ lit "/src/main.cpp src/rtcg/rtcg.cpp".
Definition mk_iconvert (conv : bool) : gostr := if conv then lit " -Isrc/convert" else [].
Definition mk_convert (conv : bool) : gostr := if conv then lit " src/convert/convert.cpp" else [].
(** Makefile.tmpl:17-18: a rule and its command. *)
Definition mk_test (conv : bool) (k : gostr) : list gostr :=
  [mk_output k ++ lit ": " ++ mk_inputs k ++ mk_convert conv;
   tab ++ lit "$(CXX) $(CXXFLAGS) -o $@ -Isrc/" ++ k ++ lit "/include -Isrc/rtcg" ++ mk_iconvert conv ++
     lit " " ++ mk_inputs k ++ mk_convert conv].
(** Makefile.tmpl:6-19, as lines. *)
Definition makefile_lines (tests : list gostr) (conv : bool) : list gostr :=
  [lit ".POSIX:";
   lit "";
   lit "CXXFLAGS = -std=c++11 -Wall -Wextra";
   lit "";
   lit ".PHONY: all mkdir";
   lit "";
   lit "all: mkdir" ++ concat (map (fun k => lit " " ++ mk_output k) tests);
   lit "";
   lit "mkdir:";
   tab ++ lit "mkdir -p bin";
   lit ""]
  ++ concat (map (mk_test conv) tests) ++ [lit ""].
Definition makefile_text (tests : gset gostr) (conv : bool) : gostr :=
  join newline (makefile_lines (sorted_names tests) conv).

(** CMakeLists.txt.tmpl:6-60, as lines. *)
Definition cm_depends (p : package) : list gostr := map (fun d => lit "    " ++ d) (pk_depends p).
Definition cmake_lines (p : package) : list gostr :=
  [lit "cmake_minimum_required(VERSION 3.0.2)";
   lit "project(" ++ pk_name p ++ lit ")";
   lit "";
   lit "add_compile_options(-std=c++11)";
   lit "";
   lit "find_package(catkin REQUIRED COMPONENTS";
   lit "    roscpp";
   lit "    std_msgs"] ++ cm_depends p ++
  [lit ")";
   lit "";
   lit "catkin_package(CATKIN_DEPENDS";
   lit "    roscpp";
   lit "    std_msgs"] ++ cm_depends p ++
  [lit ")";
   lit "";
   lit "include_directories(";
   lit "    include";
   lit "    ${catkin_INCLUDE_DIRS}";
   lit "    ../convert/";
   lit "    ../rtcg/";
   lit ")";
   lit "";
   lit "add_library(convert";
   lit "    ../convert/convert.cpp";
   lit ")";
   lit "";
   lit "add_library(rtcg";
   lit "    ../rtcg/rtcg.cpp";
   lit ")";
   lit "";
   lit "add_executable(${PROJECT_NAME}_node";
   lit "    src/main.cpp";
   lit "    ../convert/convert.cpp";
   lit "    ../rtcg/rtcg.cpp";
   lit ")";
   lit "";
   lit "set_target_properties(${PROJECT_NAME}_node PROPERTIES OUTPUT_NAME node PREFIX """")";
   lit "";
   lit "add_dependencies(${PROJECT_NAME}_node";
   lit "    ${${PROJECT_NAME}_EXPORTED_TARGETS}";
   lit "    ${catkin_EXPORTED_TARGETS}";
   lit "    convert";
   lit "    rtcg";
   lit ")";
   lit "";
   lit "target_link_libraries(${PROJECT_NAME}_node";
   lit "    ${catkin_LIBRARIES}";
   lit "    convert";
   lit "    rtcg";
   lit ")"].
Definition cmake_text (p : package) : gostr := join newline (cmake_lines p).

(** ** convert.h: internal/gen/cpp/embed/templates/{base,animate,ros}/convert *)
(** The templates "type" and "msg_type" (animate/convert.h.tmpl:21-25, ros/convert.h.tmpl:35-42). *)
Definition cv_type (v : variant) (t : rstype) : gostr := match v with VRos => lit "std_msgs::String" | _ => std_type t end.
Definition cv_msg_type (v : variant) (ch : gostr) : gostr :=
  match v with VRos => channel_value_type ch ++ lit "::ConstPtr&" | _ => channel_value_type ch end.
(** The templates "convert_from" and "convert_to" (animate/convert.h.tmpl:7-19, ros/convert.h.tmpl:7-33). *)
Definition cv_from (v : variant) (t : rstype) : list gostr :=
  match v with
  | VRos => if is_enum_ty t then [lit "  return std::string(msg->data.c_str());"] else [lit "  return msg->data;  // No conversion required"]
  | _ => [lit "  return msg;  // No conversion required for animate"]
  end.
Definition cv_to (v : variant) (t : rstype) : list gostr :=
  match v with
  | VRos => if is_enum_ty t then [lit "  std_msgs::String msg;"; lit "  msg.data = value.c_str();"; lit "  return msg;"] else [lit "  return value;  // No conversion required"]
  | _ => [lit "    return value;  // No conversion required for animate"]
  end.
(** convert_base.h.tmpl:15-17. *)
Definition cv_include (i : include) : gostr :=
  if in_system i then lit "#include <" ++ in_src i ++ lit ">" else lit "#include """ ++ in_src i ++ lit """".
(** convert_base.h.tmpl:28 and 38. *)
Definition cv_val_define (v : variant) (c : gostr * (rstype * gostr)) : gostr :=
  lit "#define " ++ channel_value_type c.1 ++ lit " " ++ (if has_override c.2 then c.2.2 else cv_type v c.2.1).
Definition cv_msg_define (v : variant) (c : gostr * (rstype * gostr)) : gostr :=
  lit "#define " ++ channel_msg_type c.1 ++ lit " " ++ cv_msg_type v c.1.
(** convert_base.h.tmpl:53-62 and 66-75. *)
Definition cv_fun (c : gostr * (rstype * gostr)) (head : gostr) (body : list gostr) : list gostr :=
  [] :: if has_override c.2 then [head ++ lit "; // User override supplied"] else [head; lit "{"] ++ body ++ [lit "}"].
Definition cv_from_fun (v : variant) (c : gostr * (rstype * gostr)) : list gostr :=
  cv_fun c (std_type c.2.1 ++ lit " " ++ convert_from c.1 ++ lit "(const " ++ channel_msg_type c.1 ++ lit " msg)") (cv_from v c.2.1).
Definition cv_to_fun (v : variant) (c : gostr * (rstype * gostr)) : list gostr :=
  cv_fun c (channel_value_type c.1 ++ lit " " ++ convert_to c.1 ++ lit "(const " ++ std_type c.2.1 ++ lit " value)") (cv_to v c.2.1).
(** convert_base.h.tmpl:8-78, as lines; templates range over the channels in increasing order of name. *)
Definition convert_lines (v : variant) (ctx : cctx) : list gostr :=
  let chans := range_map (cx_types ctx) in
  [lit "//";
   lit "// Conversion functions";
   lit "//";
   lit "";
   lit "#ifndef CONVERT_H_DEFINED";
   lit "#define CONVERT_H_DEFINED";
   lit ""] ++ map cv_include (cx_includes ctx) ++
  [lit "";
   lit "";
   lit "// Value type definitions";
   lit "//";
   lit "// These are used in the test driver wherever we need a plain value of the type";
   lit "// expected by the SUT.";
   lit "//";
   lit "// We use #define instead of typedef/using to avoid problems if there are";
   lit "// hidden type parameters (for instance, the allocators in ROS strings).";
   lit ""] ++ map (cv_val_define v) chans ++
  [lit "";
   lit "";
   lit "// Message type definitions";
   lit "//";
   lit "// These are used in output callbacks, and refer to the type of messages being";
   lit "// sent from the SUT.  These can differ from the value types; for instance, in";
   lit "// ROS, they are pointers to values rather than copies.";
   lit ""] ++ map (cv_msg_define v) chans ++
  [lit "";
   lit "//";
   lit "// Conversion functions";
   lit "//";
   lit "// We use these to convert from basic C++ types (int, std::string, etc) to";
   lit "// and from the types mentioned above.";
   lit "//";
   lit "// Wherever a function has 'User override supplied' next to it, there must be a";
   lit "// definition of that function somewhere in the compilation unit.";
   lit "//";
   lit "";
   lit "// Converting from channel message types to basic types"] ++ concat (map (cv_from_fun v) chans) ++
  [lit "";
   lit "// Converting from basic types to channel value types"] ++ concat (map (cv_to_fun v) chans) ++
  [lit "";
   lit "#endif // CONVERT_H_DEFINED";
   lit ""].
Definition convert_text (v : variant) (ctx : cctx) : gostr := join newline (convert_lines v ctx).
