#!/bin/bash
cd /verif/rocq
{ echo "-Q theories Verif"; ls theories/*.v; } > _CoqProject
