*.vo
*.vok
*.vos
*.glob
*.aux
.*.aux
*.cache
rocq/Makefile
rocq/Makefile.conf
.Makefile.d
rocq/.Makefile.d
