(* Copied by tools/text2v.py from the files of /repo named below; do not edit. *)
From Coq Require Import List String.
Import ListNotations.
Local Open Scope string_scope.

(* submods/CMakeLists.txt *)
Definition CMakeLists_txt : list string := [
"###########################################################################";
"#";
"# Copyright (c) 2016, Arthur N. Klassen";
"# All rights reserved.";
"#";
"# Redistribution and use in source and binary forms, with or without";
"# modification, are permitted provided that the following conditions are met:";
"#";
"# 1. Redistributions of source code must retain the above copyright notice,";
"#    this list of conditions and the following disclaimer.";
"#";
"# 2. Redistributions in binary form must reproduce the above copyright notice,";
"#    this list of conditions and the following disclaimer in the documentation";
"#    and/or other materials provided with the distribution.";
"#";
"# THIS SOFTWARE IS PROVIDED BY THE COPYRIGHT HOLDERS AND CONTRIBUTORS ""AS IS""";
"# AND ANY EXPRESS OR IMPLIED WARRANTIES, INCLUDING, BUT NOT LIMITED TO, THE";
"# IMPLIED WARRANTIES OF MERCHANTABILITY AND FITNESS FOR A PARTICULAR PURPOSE";
"# ARE DISCLAIMED. IN NO EVENT SHALL THE COPYRIGHT HOLDER OR CONTRIBUTORS BE";
"# LIABLE FOR ANY DIRECT, INDIRECT, INCIDENTAL, SPECIAL, EXEMPLARY, OR";
"# CONSEQUENTIAL DAMAGES (INCLUDING, BUT NOT LIMITED TO, PROCUREMENT OF";
"# SUBSTITUTE GOODS OR SERVICES; LOSS OF USE, DATA, OR PROFITS; OR BUSINESS";
"# INTERRUPTION) HOWEVER CAUSED AND ON ANY THEORY OF LIABILITY, WHETHER IN";
"# CONTRACT, STRICT LIABILITY, OR TORT (INCLUDING NEGLIGENCE OR OTHERWISE)";
"# ARISING IN ANY WAY OUT OF THE USE OF THIS SOFTWARE, EVEN IF ADVISED OF THE";
"# POSSIBILITY OF SUCH DAMAGE.";
"#";
"###########################################################################";
"#";
"#    May you do good and not evil.";
"#    May you find forgiveness for yourself and forgive others.";
"#    May you share freely, never taking more than you give.";
"#";
"###########################################################################";
"";
"set( INSTALL_GTEST OFF )";
"if( APPLE )";
"    add_compile_options( -Wno-error -Wno-uninitialized )";
"elseif( UNIX )";
"    add_compile_options( -Wno-error -Wno-maybe-uninitialized )";
"endif()";
"";
"# bring in google_test";
"if(NOT (TARGET ""gmock"" OR TARGET ""gtest""))";
"    if( WIN32 )";
"        set( BUILD_SHARED_LIBS on )";
"    endif()";
"    add_subdirectory(googletest)";
"";
"    if( WIN32 )";
"        set(CompilerFlags";
"                CMAKE_CXX_FLAGS";
"                CMAKE_CXX_FLAGS_DEBUG";
"                CMAKE_CXX_FLAGS_RELEASE";
"                CMAKE_C_FLAGS";
"                CMAKE_C_FLAGS_DEBUG";
"                CMAKE_C_FLAGS_RELEASE";
"                )";
"        foreach(CompilerFlag ${CompilerFlags})";
"          string(REPLACE ""/MD"" ""/MT"" ${CompilerFlag} ""${${CompilerFlag}}"")";
"        endforeach()";
"    endif()";
"endif()"
].

(* the name of each file and its lines *)
Definition files : list (string * list string) :=
  [("submods/CMakeLists.txt", CMakeLists_txt)].
