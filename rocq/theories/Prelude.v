(** * The prelude: the two files that are copied into every generated tree

    internal/gen/cpp/embed/prelude, embedded by internal/gen/cpp/embed (go:embed) and copied by
    copyPreludeFile (internal/gen/cpp/copy.go:40-47), byte by byte. *)
From Verif Require Export Text.

(** internal/gen/cpp/embed/prelude/rtcg.h:1-80. *)
Definition prelude_h : gostr := lit "//
// rtcg.h - functionality common to rtcg tests
//
// Copyright (C) 2023 University of York and others
//
// SPDX-License-Identifier: MIT
//

#ifndef RTCG_H_DEFINED
#define RTCG_H_DEFINED

namespace rtcg
{
  //
  // Outcome
  //

  // An inconclusive, passing, or failing outcome.
  enum class Outcome {
    UNSET, // Outcome not set.
    INC,   // Inconclusive outcome.
    PASS,  // Passing outcome.
    FAIL   // Failing outcome.
  };

  // A string representation of an outcome.
  const char* outstr(Outcome o);

  //
  // Status
  //

  // Statuses of a test-case.
  enum class Status
  {
  // Test is running:
    WAIT_START, // Test is waiting to start.
    WAIT_IN,    // Test is waiting for an input acknowledgement.
    WAIT_OUT,   // Test is waiting for an output acknowledgement.
  // Test is not running:
    OFF_SCRIPT, // We saw something that didn't match a transition.
    TIMEOUT,    // We timed out waiting for something to happen.
    FAIL,       // We failed a test.
    BUG,        // Something went internally wrong inside the test.
  };

  namespace status
  {
    // Returns a (static) description of a status.
    const char* explain(Status s);

    // Gets whether this status means the test is still running.
    bool isRunning(Status s);

    // Converts a status into an exit code.
    int exitCode(Status s);
  }


  //
  // Test case
  //

  // Base class for test cases, containing functionality unchanged across all cases.
  class TestCase
  {
  public:
    Status getStatus(); // Gets the current status of the test.
  protected:
    Status status_ = Status::WAIT_START; // Current status of the test.
  };
}

// Overloads stream output for Status (using rtcg::status::explain).
std::ostream& operator<<(std::ostream& stm, rtcg::Status o);

// Overloads stream output for Outcome (using rtcg::outstr).
std::ostream& operator<<(std::ostream& stm, rtcg::Outcome o);

#endif // RTCG_H_DEFINED
".
(** internal/gen/cpp/embed/prelude/rtcg.cpp:1-102. *)
Definition prelude_cpp : gostr := lit "//
// rtcg.cpp - functionality common to rtcg tests
//
// Copyright (C) 2023 University of York and others
//
// SPDX-License-Identifier: MIT
//

#include <ostream>

#include ""rtcg.h""

//
// Outcome
//

const char* rtcg::outstr(rtcg::Outcome o)
{
  switch (o)
  {
  case rtcg::Outcome::UNSET:
    return ""unset"";
  case rtcg::Outcome::INC:
    return ""inconclusive"";
  case rtcg::Outcome::PASS:
    return ""passed"";
  case rtcg::Outcome::FAIL:
    return ""failed"";
  }
  return ""???"";
}

std::ostream& operator<<(std::ostream& stm, rtcg::Outcome o)
{
  return stm << rtcg::outstr(o);
}

//
// Status
//

const char* rtcg::status::explain(rtcg::Status s)
{
  switch (s) {
  case rtcg::Status::WAIT_START:
    return ""waiting to start"";
  case rtcg::Status::WAIT_IN:
    return ""waiting for input acknowledgement"";
  case rtcg::Status::WAIT_OUT:
    return ""waiting for output"";
  case rtcg::Status::OFF_SCRIPT:
    return ""an event happened that took the test off-script"";
  case rtcg::Status::TIMEOUT:
    return ""the test ran out of time"";
  case rtcg::Status::FAIL:
    return ""an unwanted behaviour occurred"";
  case rtcg::Status::BUG:
    return ""an internal error occurred"";
  default:
    return ""unknown (this should not occur)"";
  }
}

std::ostream& operator<<(std::ostream& stm, rtcg::Status o)
{
  return stm << rtcg::status::explain(o);
}

bool rtcg::status::isRunning(rtcg::Status s)
{
  switch (s)
  {
  case Status::WAIT_START:
  case Status::WAIT_IN:
  case Status::WAIT_OUT:
    return true;
  default:
    return false;
  }
}

int rtcg::status::exitCode(rtcg::Status s)
{
  switch (s)
  {
  case rtcg::Status::FAIL:
    return 1;
  case rtcg::Status::BUG:
    return 2;
  default:
    return 0;
  }
}

//
// TestCase
//

rtcg::Status rtcg::TestCase::getStatus()
{
  return status_;
}
".
(** The embedded files by their name. *)
Definition prelude_text (name : gostr) : option gostr :=
  if decide (name = lit "rtcg.h") then Some prelude_h else if decide (name = lit "rtcg.cpp") then Some prelude_cpp else None.
