#!/bin/bash
# coqc for mutation runs: bounded time and memory
ulimit -v 7000000
exec timeout 150 coqc "$@"
