*.vo
*.vok
*.vos
*.glob
.*.aux
.*.cache
Makefile
Makefile.conf
.Makefile.d
CoqMakefile*
