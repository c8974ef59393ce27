*.vo
*.vok
*.vos
*.glob
.*.aux
*.cache
Makefile
Makefile.conf
.Makefile.d
.CoqMakefile.d
__pycache__/
